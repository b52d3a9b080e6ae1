(** fsqrt.h computed in single precision; a float square root computed by the double function. *)
From Coq Require Import ZArith Bool List Lia.
From Verif Require Import Bits IeeeSpec FpSpec FpModel FpProofs FarithSpec FarithModel FarithProofs FarithExec HalfProofs HalfConv RoundProofs RoundTwice HalfArith HalfExec FvWide SqrtTwice.
Import ListNotations.
Local Open Scope Z_scope.

Lemma root_pos : forall x, 0 < x -> 0 < root x.
Proof.
  intros x Hx. unfold root. pose proof (Z.sqrt_pos x) as [_ S]. specialize (S Hx). destruct (Z.sqrt x * Z.sqrt x =? x); lia.
Qed.
Lemma rat_pos : forall f rm n d zs, 0 < n -> round_rat f rm n d zs = round_to f rm false n d.
Proof.
  intros f rm n d zs Hn. unfold round_rat. replace (n =? 0) with false by (symmetry; apply Z.eqb_neq; lia).
  replace (n <? 0) with false by (symmetry; apply Z.ltb_ge; lia). rewrite Z.abs_eq by lia. reflexivity.
Qed.
Lemma sqrt_finite : forall f rm a, is_nan f a = false -> is_zero f a = false -> sign f a = false -> is_inf f a = false ->
  ieee_sqrt f rm a = round_rat f rm (root (magnitude f a * 2 ^ (quantum f + 2 * (sw f + 4)))) (2 ^ (quantum f + (sw f + 4) + 1)) false.
Proof. intros f rm a N Z0 S I. unfold ieee_sqrt. rewrite N, Z0, S, I. reflexivity. Qed.

(** ** Half precision *)
Lemma half_root : forall rm m A al, 0 < m < 2 ^ 40 -> m = A * 2 ^ al -> 0 <= A < 2048 -> 0 <= al ->
  let n := root (m * DQ * 2 ^ (149 + 2 * 27)) in
  safe rm n (2 ^ 177) /\ round_to half rm false n (2 ^ 177) = round_to half rm false (root (m * 2 ^ 52)) (2 ^ 39).
Proof.
  intros rm m A al Hm EM HA Hal n.
  assert (EX : m * DQ * 2 ^ (149 + 2 * 27) = m * 2 ^ 328) by (unfold DQ; rewrite <- Z.mul_assoc, <- Z.pow_add_r by lia; reflexivity).
  assert (B : 2 ^ (2 * 164) <= m * DQ * 2 ^ (149 + 2 * 27) < 2 ^ (2 * 184)).
  { rewrite EX. change (2 ^ (2 * 164)) with (2 ^ 328). replace (2 ^ (2 * 184)) with (2 ^ 40 * 2 ^ 328) by (rewrite <- Z.pow_add_r by lia; reflexivity).
    assert (P : 0 < 2 ^ 328) by (apply pow2_pos; lia). set (P3 := 2 ^ 328) in *. clearbody P3. clear - Hm P. nia. }
  assert (AP : 0 < A < 2 ^ (sw half + 1)).
  { change (2 ^ (sw half + 1)) with 2048. split; [| apply HA]. destruct (Z.eq_dec A 0) as [-> | NZ]; [| clear - HA NZ; lia]. rewrite Z.mul_0_l in EM. clear - EM Hm. lia. }
  assert (EX2 : m * DQ * 2 ^ (149 + 2 * 27) = A * 2 ^ al * 2 ^ (quantum single - quantum half) * 2 ^ (quantum single + 2 * 27)) by (rewrite <- EM; reflexivity).
  assert (TOP : 2 ^ (184 - 27) <= val single (top single - 1)).
  { apply Z.le_trans with (2 ^ 276); [| exact huge]. apply Z.pow_le_mono_r; lia. }
  destruct (root_mid single half 27 ok_single ok_half ltac:(cbn; lia) ltac:(reflexivity) ltac:(lia) A al _ 164 184 AP Hal EX2 ltac:(lia) B ltac:(cbn; lia) TOP) as (LB & UB & MID).
  fold n in LB, UB, MID. change (quantum single + 27 + 1) with 177 in *. change (quantum single) with 149 in *. change (sw single) with 23 in *.
  assert (NB : 2 * 2 ^ 164 <= n) by (apply (root_bounds _ 164 184); [apply Z.lt_le_trans with (2 ^ (2 * 164)); [apply pow2_pos; lia | apply B] | lia | lia | apply B | apply B]).
  split.
  - unfold safe. split; [exact LB |]. split; [exact UB |]. intros s. split.
    + intros -> P HP E. apply (MID s P HP). exact E.
    + intros SMALL. exfalso. assert (E : 1024 * DQ * 2 ^ 177 <= 2 * 2 ^ 164 * 2 ^ 149) by (apply Z.leb_le; vm_compute; reflexivity).
      assert (P : 0 < 2 ^ 149) by (apply pow2_pos; lia). set (a := 2 ^ 149) in *. set (b := 1024 * DQ * 2 ^ 177) in *. set (c := 2 * 2 ^ 164) in *. clearbody a b c. clear - SMALL E P NB. nia.
  - assert (E : m * DQ * 2 ^ (149 + 2 * 27) = m * 2 ^ 52 * (2 ^ 138 * 2 ^ 138)) by (rewrite EX, <- Z.mul_assoc, <- !Z.pow_add_r by lia; reflexivity).
    unfold n. rewrite E. change 177 with (38 + 1 + 138). change 39 with (38 + 1). apply round_root_scaled; [exact ok_half | | lia | reflexivity |].
    { assert (P : 0 < 2 ^ 52) by reflexivity. clear - P Hm. nia. }
    assert (R : 2 * 2 ^ 26 <= root (m * 2 ^ 52)).
    { apply (root_bounds _ 26 46); try lia; change (2 ^ 52) with 4503599627370496; change (2 ^ (2 * 26)) with 4503599627370496; change (2 ^ (2 * 46)) with (2 ^ 40 * 4503599627370496); clear - Hm; lia. }
    apply Z.le_trans with (2 * 2 ^ 26 * 2 ^ quantum half); [vm_compute; congruence | apply Z.mul_le_mono_nonneg_r; [vm_compute; congruence | exact R]].
Qed.

Lemma sqrt_matching : forall rm a x, widened a x ->
  matching (fun n d => n <> 0 -> safe rm (Z.abs n) d) rm (sig_flag a) (ieee_sqrt single rm x) (ieee_sqrt half rm a).
Proof.
  intros rm a x (HA & HX & NA & SA & RA). unfold matching.
  destruct (is_nan half a) eqn:N.
  { left. unfold ieee_sqrt. rewrite NA, N, SA. split; [reflexivity |]. unfold nan_result, sig_flag. destruct (is_snan half a); reflexivity. }
  rewrite (not_nan_flag a N). destruct (RA eq_refl) as (A1 & A2 & A3 & A4).
  destruct (is_zero half a) eqn:Z0.
  { right. split; [reflexivity |]. right. left. exists (sign half a). unfold ieee_sqrt. rewrite NA, N, A3, Z0. split.
    - rewrite <- A1. f_equal. apply zero_patterns; [exact ok_single | exact HX |]. apply magnitude_zero. exact A3.
    - f_equal. apply zero_patterns; [exact ok_half | exact HA |]. apply magnitude_zero. exact Z0. }
  destruct (sign half a) eqn:S.
  { left. unfold ieee_sqrt. rewrite NA, N, A3, Z0, A1, S. split; reflexivity. }
  right. split; [reflexivity |]. destruct (is_inf half a) eqn:I.
  { left. exists false, 0. unfold ieee_sqrt. rewrite NA, N, A3, Z0, A1, S, A2, I. split; f_equal.
    - rewrite <- A1. apply inf_pattern; [exact ok_single | exact HX | exact A2].
    - rewrite <- S. apply inf_pattern; [exact ok_half | exact HA | exact I]. }
  right. right. rewrite (sqrt_finite single rm x NA A3 A1 A2), (sqrt_finite half rm a N Z0 S I), (A4 eq_refl).
  pose proof (half_bound a HA N I) as B. pose proof (magnitude_pos half a ok_half Z0) as MP.
  destruct (half_parts a HA N I) as (A & al & HAr & Hal & EM).
  destruct (half_root rm (magnitude half a) A al ltac:(clear - B MP; lia) EM HAr ltac:(clear - Hal; lia)) as [SF SAME].
  change (quantum single + 2 * (sw single + 4)) with (149 + 2 * 27). change (quantum single + (sw single + 4) + 1) with 177.
  change (quantum half + 2 * (sw half + 4)) with 52. change (quantum half + (sw half + 4) + 1) with 39.
  set (n := root (magnitude half a * DQ * 2 ^ (149 + 2 * 27))) in *.
  assert (NP : 0 < n).
  { apply root_pos. assert (P1 : 0 < DQ) by (apply pow2_pos; clear; lia). assert (P2 : 0 < 2 ^ (149 + 2 * 27)) by (apply pow2_pos; clear; lia). clear - MP P1 P2. apply Z.mul_pos_pos; [apply Z.mul_pos_pos |]; assumption. }
  exists n, (2 ^ 177), 0, false. split; [reflexivity |]. split; [clear; lia |]. rewrite Z.pow_0_r, !Z.mul_1_r. split; [reflexivity |]. split.
  - rewrite !rat_pos; [symmetry; exact SAME | exact NP |]. apply root_pos. assert (P : 0 < 2 ^ 52) by reflexivity. clear - P MP. nia.
  - intros _. rewrite Z.abs_eq by (clear - NP; lia). exact SF.
Qed.

(** ** Single precision by the double function *)
Lemma top_wide : 2 ^ (1194 - 56) <= val double (top double - 1).
Proof. apply Z.leb_le. vm_compute. reflexivity. Qed.
Lemma single_bounds : forall m, 0 < m < 2 ^ 277 -> 2 ^ (2 * 1055) <= m * 2 ^ 2111 < 2 ^ (2 * 1194).
Proof.
  intros m Hm. assert (E : 2 ^ (2 * 1194) = 2 ^ 277 * 2 ^ 2111) by (rewrite <- Z.pow_add_r by (clear; lia); reflexivity).
  rewrite E. change (2 * 1055) with 2110. assert (P : 0 < 2 ^ 2110) by (apply pow2_pos; clear; lia). assert (E2 : 2 ^ 2111 = 2 * 2 ^ 2110) by (rewrite <- Z.pow_succ_r by (clear; lia); reflexivity).
  rewrite E2. clear E E2. set (P3 := 2 ^ 2110) in *. set (M := 2 ^ 277) in *. clearbody P3 M. nia.
Qed.
Lemma single_same : forall rm m, 0 < m < 2 ^ 277 ->
  round_to single rm false (root (m * 2 ^ 203 * (2 ^ 954 * 2 ^ 954))) (2 ^ (176 + 1 + 954)) = round_to single rm false (root (m * 2 ^ 203)) (2 ^ (176 + 1)).
Proof.
  intros rm m Hm. assert (P0 : 0 < 2 ^ 203) by reflexivity.
  apply round_root_scaled; [exact ok_single | apply Z.mul_pos_pos; [apply Hm | exact P0] | clear; lia | reflexivity |].
  assert (R : 2 * 2 ^ 101 <= root (m * 2 ^ 203)).
  { apply (root_bounds _ 101 240); [| clear; lia | clear; lia | |].
    - apply Z.mul_pos_pos; [apply Hm | exact P0].
    - change (2 * 101) with 202. assert (P : 2 ^ 202 <= 2 ^ 203) by (vm_compute; congruence). set (p := 2 ^ 203) in *. set (p' := 2 ^ 202) in *. clearbody p p'. clear - P P0 Hm. nia.
    - assert (E : 2 ^ (2 * 240) = 2 ^ 277 * 2 ^ 203) by (rewrite <- Z.pow_add_r by (clear; lia); reflexivity). rewrite E. apply Z.mul_lt_mono_pos_r; [exact P0 | apply Hm]. }
  apply Z.le_trans with (2 * 2 ^ 101 * 2 ^ quantum single); [vm_compute; congruence | apply Z.mul_le_mono_nonneg_r; [vm_compute; congruence | exact R]].
Qed.
Lemma wide_eq : forall m, m * 2 ^ (quantum double - quantum single) * 2 ^ (quantum double + 2 * 56) = m * 2 ^ 2111.
Proof. intros m. rewrite <- Z.mul_assoc, <- Z.pow_add_r by (vm_compute; congruence). reflexivity. Qed.
Lemma wide_eq2 : forall m, m * 2 ^ 2111 = m * 2 ^ 203 * (2 ^ 954 * 2 ^ 954).
Proof. intros m. rewrite <- Z.mul_assoc, <- !Z.pow_add_r by (clear; lia). reflexivity. Qed.
Lemma single_root : forall rm m A al, 0 < m < 2 ^ 277 -> m = A * 2 ^ al -> 0 <= A < 2 ^ 24 -> 0 <= al -> 0 <= rm <= 3 ->
  let z := round_to double rm false (root (m * 2 ^ 2111)) (2 ^ (quantum double + 56 + 1)) in
  is_nan double (fst z) = false /\ is_inf double (fst z) = false /\ sign double (fst z) = false /\ 0 < magnitude double (fst z) /\
  let w := round_to single rm false (magnitude double (fst z)) (2 ^ quantum double) in
  (fst w, Z.lor (snd z) (snd w)) = round_to single rm false (root (m * 2 ^ 203)) (2 ^ (176 + 1)).
Proof.
  intros rm m A al Hm EM HA Hal Hrm.
  assert (AP : 0 < A < 2 ^ (sw single + 1)).
  { change (2 ^ (sw single + 1)) with (2 ^ 24). split; [| apply HA]. destruct (Z.eq_dec A 0) as [-> | NZ]; [| clear - HA NZ; lia]. rewrite Z.mul_0_l in EM. clear - EM Hm. lia. }
  rewrite <- (single_same rm m Hm), <- (wide_eq2 m). change (176 + 1 + 954) with (quantum double + 56 + 1).
  pose proof (single_bounds m Hm) as B. set (x := m * 2 ^ 2111) in *.
  assert (EX2 : x = A * 2 ^ al * 2 ^ (quantum double - quantum single) * 2 ^ (quantum double + 2 * 56)) by (rewrite <- EM; symmetry; apply wide_eq). clearbody x.
  exact (root_twice double single 56 ok_double ok_single ltac:(cbn; clear; lia) ltac:(reflexivity) ltac:(clear; lia) rm A al x 1055 1194 Hrm AP Hal EX2 ltac:(clear; lia) B ltac:(cbn; clear; lia) top_wide ltac:(vm_compute; congruence)).
Qed.

Lemma sqrt_call_ok : forall H wide f rm x, host_ok H -> sd f -> 0 <= rm <= 3 -> 0 <= x < 2 ^ width f -> is_nan f x = false -> is_zero f x = false -> sign f x = false ->
  sqrt_call H wide f rm x = ieee_sqrt f rm x.
Proof.
  intros H wide f rm x HO Hf Hrm Hx N Z0 S. pose proof (sd_ok f Hf) as Ok.
  assert (NB : number f (fst (ieee_sqrt f rm x))) by (apply sqrt_number; try assumption; left; exact S).
  assert (DIR : h_sqrt H f rm x = ieee_sqrt f rm x) by (apply (like_number f); [apply (HO f rm x x x Hf Hrm Hx Hx Hx) | exact NB]).
  unfold sqrt_call. destruct (wide && is_fmt f single) eqn:WF; [| exact DIR]. clear DIR NB.
  assert (f = single) by (destruct Hf as [-> | ->]; [reflexivity | rewrite andb_comm in WF; discriminate WF]). subst f. clear WF Hf Ok.
  change (2 ^ width single) with (2 ^ 32) in Hx.
  destruct (cvt_wide rm x Hx N) as (C1 & C2 & C3 & C4 & C5 & C6).
  destruct (HO single rm x x x (or_introl eq_refl) Hrm Hx Hx Hx) as (_ & _ & _ & _ & _ & _ & CV & _).
  assert (E1 : h_cvt H single double rm x = ieee_cvt single double rm x).
  { apply (like_number double); [apply CV; right; reflexivity | apply cvt_number; [exact ok_single | exact ok_double | exact N]]. }
  rewrite E1. destruct (ieee_cvt single double rm x) as [y f0]. cbn [fst snd] in *. subst f0. rewrite S in C4.
  assert (E2 : h_sqrt H double rm y = ieee_sqrt double rm y).
  { apply (like_number double); [apply (HO double rm y y y (or_intror eq_refl) Hrm C2 C2 C2) | apply sqrt_number; [exact ok_double | exact C2 | exact C3 | left; exact C4]]. }
  rewrite E2. destruct (is_inf single x) eqn:I.
  - assert (EY : y = infinity double false) by (rewrite (inf_pattern double y ok_double C2 C5), C4; reflexivity).
    assert (EXI : x = infinity single false) by (rewrite (inf_pattern single x ok_single Hx I), S; reflexivity). rewrite EY.
    change (ieee_sqrt double rm (infinity double false)) with (infinity double false, 0).
    assert (E3 : h_cvt H double single rm (infinity double false) = (infinity single false, 0)).
    { assert (R : 0 <= infinity double false < 2 ^ width double) by (vm_compute; split; congruence).
      destruct (HO double rm _ _ _ (or_intror eq_refl) Hrm R R R) as (_ & _ & _ & _ & _ & _ & CV2 & _).
      apply (like_number single); [exact (CV2 single (or_introl eq_refl)) | vm_compute; repeat split; congruence]. }
    cbv beta iota zeta. rewrite E3, EXI. reflexivity.
  - specialize (C6 eq_refl). pose proof (magnitude_pos single x ok_single Z0) as MP. set (m := magnitude single x) in *.
    assert (UX : units single x = m) by (unfold units; rewrite S; reflexivity). assert (WP : 0 < W) by (apply pow2_pos; clear; lia).
    assert (MY : magnitude double y = m * W) by (unfold units in C6; rewrite C4, S in C6; exact C6).
    assert (ZY : is_zero double y = false).
    { destruct (is_zero double y) eqn:E; [| reflexivity]. destruct (magnitude_zero double y E) as [M0 _]. rewrite MY in M0. exfalso. clear - M0 MP WP. nia. }
    destruct (single_parts x N I) as (A & al & HA & Hal & EM). fold m in EM.
    assert (MB : m < 2 ^ 277). { rewrite EM. change 277 with (24 + 253). apply pow_bound; [exact HA | clear; lia | clear - Hal; lia]. }
    rewrite (sqrt_finite double rm y C3 ZY C4 C5), (sqrt_finite single rm x N Z0 S I), MY. fold m.
    assert (EW : m * W * 2 ^ (quantum double + 2 * (sw double + 4)) = m * 2 ^ 2111) by exact (wide_eq m). rewrite EW.
    change (quantum double + (sw double + 4) + 1) with (quantum double + 56 + 1).
    change (quantum single + 2 * (sw single + 4)) with 203. change (quantum single + (sw single + 4) + 1) with (176 + 1).
    assert (R1 : 0 < root (m * 2 ^ 2111)) by (apply root_pos; apply Z.mul_pos_pos; [exact MP | apply pow2_pos; clear; lia]).
    assert (R2 : 0 < root (m * 2 ^ 203)) by (apply root_pos; apply Z.mul_pos_pos; [exact MP | apply pow2_pos; clear; lia]).
    rewrite (rat_pos double _ _ _ _ R1), (rat_pos single _ _ _ _ R2).
    destruct (single_root rm m A al ltac:(split; assumption) EM HA ltac:(clear - Hal; lia) Hrm) as (NN & NI & SG & YP & EQ). rewrite <- EQ. clear EQ EW R2.
    set (rx := root (m * 2 ^ 2111)) in *. clearbody rx.
    assert (ZR : 0 <= fst (round_to double rm false rx (2 ^ (quantum double + 56 + 1))) < 2 ^ width double) by (apply (number_round double rm false rx (2 ^ (quantum double + 56 + 1)) ok_double); [clear - R1; lia | apply pow2_pos; vm_compute; congruence]).
    destruct (round_to double rm false rx (2 ^ (quantum double + 56 + 1))) as [z fz]. cbn [fst snd] in *.
    assert (E3 : h_cvt H double single rm z = round_to single rm false (magnitude double z) (2 ^ quantum double)).
    { destruct (HO double rm z z z (or_intror eq_refl) Hrm ZR ZR ZR) as (_ & _ & _ & _ & _ & _ & CV2 & _). specialize (CV2 single (or_introl eq_refl)).
      rewrite (like_number single _ _ CV2) by (apply cvt_number; [exact ok_double | exact ok_single | exact NN]).
      unfold ieee_cvt. rewrite NN, NI. unfold units. rewrite SG. rewrite rat_pos by exact YP. reflexivity. }
    rewrite E3. destruct (round_to single rm false (magnitude double z) (2 ^ quantum double)) as [w fw]. cbn [fst snd]. rewrite Z.lor_0_l. reflexivity.
Qed.
