(** Square roots computed in a wider format and rounded again. *)
From Coq Require Import ZArith Bool List Lia.
From Verif Require Import Bits IeeeSpec FpProofs FarithSpec FarithModel FarithProofs RoundProofs RoundTwice HalfArith.
Local Open Scope Z_scope.

(** The square root with one more bit, and a bit telling whether it is exact, as [ieee_sqrt] uses it. *)
Definition root (x : Z) : Z := 2 * Z.sqrt x + (if Z.sqrt x * Z.sqrt x =? x then 0 else 1).

Lemma root_bounds : forall x L U, 0 < x -> 0 <= L -> 0 <= U -> 2 ^ (2 * L) <= x -> x < 2 ^ (2 * U) -> 2 * 2 ^ L <= root x < 2 * 2 ^ U.
Proof.
  intros x L U Hx HL HU B1 B2. unfold root. pose proof (Z.sqrt_spec x ltac:(lia)) as [S1 S2]. pose proof (Z.sqrt_nonneg x) as S0.
  set (r := Z.sqrt x) in *. clearbody r. replace (2 * L) with (L + L) in B1 by ring. replace (2 * U) with (U + U) in B2 by ring.
  rewrite Z.pow_add_r in B1, B2 by lia. pose proof (pow2_pos L HL) as PL. pose proof (pow2_pos U HU) as PU. set (a := 2 ^ L) in *. set (b := 2 ^ U) in *. clearbody a b.
  assert (A : a <= r) by nia. assert (B : r < b) by nia. destruct (r * r =? x); lia.
Qed.

(** ** How many extra bits are computed does not matter *)
Lemma sqrt_scaled : forall x J, 0 < x -> 0 < J -> Z.sqrt x * J <= Z.sqrt (x * (J * J)) < (Z.sqrt x + 1) * J.
Proof.
  intros x J Hx HJ. pose proof (Z.sqrt_spec x ltac:(lia)) as [S1 S2]. pose proof (Z.sqrt_nonneg x) as S0.
  pose proof (Z.sqrt_spec (x * (J * J)) ltac:(nia)) as [T1 T2]. pose proof (Z.sqrt_nonneg (x * (J * J))) as T0.
  set (r := Z.sqrt x) in *. set (t := Z.sqrt (x * (J * J))) in *. clearbody r t. unfold Z.succ in *.
  assert (E1 : (r * J) * (r * J) <= x * (J * J)) by nia. assert (E2 : x * (J * J) < ((r + 1) * J) * ((r + 1) * J)) by nia.
  set (u := r * J) in *. set (v := (r + 1) * J) in *. set (y := x * (J * J)) in *. assert (0 <= u) by (unfold u; nia). assert (0 <= v) by (unfold v; nia). clearbody u v y. split; nia.
Qed.
Lemma square_scaled : forall j t x, 0 <= j -> t * t = x * (2 ^ j * 2 ^ j) -> exists r, t = r * 2 ^ j.
Proof.
  intros j t x Hj. revert t x. pattern j. apply natlike_ind; [| | exact Hj]; clear j Hj.
  - intros t x E. exists t. rewrite Z.pow_0_r. ring.
  - intros j Hj IH t x E. rewrite Z.pow_succ_r in * by exact Hj.
    assert (EV : Z.even t = true).
    { assert (Q : Z.even (t * t) = true) by (rewrite E; replace (x * (2 * 2 ^ j * (2 * 2 ^ j))) with (2 * (x * 2 ^ j * (2 * 2 ^ j))) by ring; apply Z.even_mul).
      rewrite Z.even_mul in Q. destruct (Z.even t); [reflexivity | discriminate Q]. }
    apply Z.even_spec in EV. destruct EV as [u ->]. destruct (IH u x) as [r ->]; [nia |]. exists r. ring.
Qed.
Lemma root_scaled : forall x j, 0 < x -> 0 <= j ->
  (root (x * (2 ^ j * 2 ^ j)) = root x * 2 ^ j) \/
  (forall w, (2 * w < root x <-> 2 * (w * 2 ^ j) < root (x * (2 ^ j * 2 ^ j))) /\ 2 * w <> root x /\ 2 * (w * 2 ^ j) <> root (x * (2 ^ j * 2 ^ j))).
Proof.
  intros x j Hx Hj. pose proof (pow2_pos j Hj) as JP. pose proof (sqrt_scaled x (2 ^ j) Hx JP) as B. unfold root.
  destruct (Z.eqb_spec (Z.sqrt x * Z.sqrt x) x) as [E | E].
  - left. assert (T : Z.sqrt (x * (2 ^ j * 2 ^ j)) = Z.sqrt x * 2 ^ j).
    { rewrite <- E at 1. replace (Z.sqrt x * Z.sqrt x * (2 ^ j * 2 ^ j)) with ((Z.sqrt x * 2 ^ j) * (Z.sqrt x * 2 ^ j)) by ring. apply Z.sqrt_square.
      pose proof (Z.sqrt_nonneg x). nia. }
    rewrite T. replace (Z.sqrt x * 2 ^ j * (Z.sqrt x * 2 ^ j)) with (Z.sqrt x * Z.sqrt x * (2 ^ j * 2 ^ j)) by ring. rewrite E, Z.eqb_refl. ring.
  - right. intros w. set (t := Z.sqrt (x * (2 ^ j * 2 ^ j))) in *.
    destruct (Z.eqb_spec (t * t) (x * (2 ^ j * 2 ^ j))) as [E' | E'].
    { exfalso. apply E. destruct (square_scaled j t x Hj E') as [r Er].
      assert (XX : r * r = x) by (rewrite Er in E'; nia). rewrite <- XX.
      assert (R0 : 0 <= r) by (pose proof (Z.sqrt_nonneg (x * (2 ^ j * 2 ^ j))) as T0; fold t in T0; rewrite Er in T0; nia).
      rewrite (Z.sqrt_square r R0). reflexivity. }
    set (r := Z.sqrt x) in *. clearbody r t. split; [| lia]. clear - B JP. split; intros L; nia.
Qed.

Lemma goes_up_same : forall rm s lo hi o q m j p1 p2, 0 <= q -> 1 <= m -> 0 <= j ->
  (forall w, (2 * w < p1 <-> 2 * (w * 2 ^ j) < p2) /\ 2 * w <> p1 /\ 2 * (w * 2 ^ j) <> p2) ->
  goes_up rm s lo hi (2 ^ (q + m + 1)) (p1 * 2 ^ q) o = goes_up rm s lo hi (2 ^ (q + m + 1 + j)) (p2 * 2 ^ q) o.
Proof.
  intros rm s lo hi o q m j p1 p2 Hq Hm Hj C.
  assert (E : 2 ^ (q + m + 1) = 4 * 2 ^ (m - 1) * 2 ^ q).
  { replace (q + m + 1) with (2 + (m - 1) + q) by ring. rewrite !Z.pow_add_r by lia. reflexivity. }
  rewrite (Z.pow_add_r 2 (q + m + 1) j) by lia. rewrite E. pose proof (pow2_pos q Hq) as QP. pose proof (pow2_pos j Hj) as JP.
  pose proof (C ((lo + hi) * 2 ^ (m - 1))) as C1. pose proof (C (lo * (2 * 2 ^ (m - 1)))) as C2.
  set (M := 2 ^ (m - 1)) in *. set (Q := 2 ^ q) in *. set (J := 2 ^ j) in *. clearbody M Q J. clear C E. unfold goes_up.
  assert (R1 : ((lo + hi) * (4 * M * Q) <? 2 * (p1 * Q)) = ((lo + hi) * (4 * M * Q * J) <? 2 * (p2 * Q))).
  { destruct C1 as (C1 & _ & _). clear C2. replace ((lo + hi) * (4 * M * Q)) with (2 * (2 * ((lo + hi) * M)) * Q) by ring. replace ((lo + hi) * (4 * M * Q * J)) with (2 * (2 * ((lo + hi) * M * J)) * Q) by ring.
    set (a := (lo + hi) * M) in *. replace (2 * (p1 * Q)) with (2 * p1 * Q) by ring. replace (2 * (p2 * Q)) with (2 * p2 * Q) by ring.
    set (b := a * J) in *. clearbody a b. destruct (Z.ltb_spec (2 * (2 * a) * Q) (2 * p1 * Q)), (Z.ltb_spec (2 * (2 * b) * Q) (2 * p2 * Q)); try reflexivity; exfalso; nia. }
  assert (R2 : ((lo + hi) * (4 * M * Q) =? 2 * (p1 * Q)) = false).
  { apply Z.eqb_neq. intros X. destruct C1 as (_ & C1 & _). apply C1. set (a := (lo + hi) * M) in *. replace ((lo + hi) * (4 * M * Q)) with (2 * Q * (2 * a)) in X by (unfold a; ring). clear - X QP. nia. }
  assert (R3 : ((lo + hi) * (4 * M * Q * J) =? 2 * (p2 * Q)) = false).
  { apply Z.eqb_neq. intros X. destruct C1 as (_ & _ & C1). apply C1. set (a := (lo + hi) * M * J) in *. replace ((lo + hi) * (4 * M * Q * J)) with (2 * Q * (2 * a)) in X by (unfold a; ring). clear - X QP. nia. }
  assert (R4 : (lo * (4 * M * Q) <? p1 * Q) = (lo * (4 * M * Q * J) <? p2 * Q)).
  { destruct C2 as (C2 & _ & _). clear - C2 QP. replace (lo * (4 * M * Q)) with (2 * (lo * (2 * M)) * Q) by ring. replace (lo * (4 * M * Q * J)) with (2 * (lo * (2 * M) * J) * Q) by ring.
    set (a := lo * (2 * M)) in *. set (b := a * J) in *. clearbody a b. destruct (Z.ltb_spec (2 * a * Q) (p1 * Q)), (Z.ltb_spec (2 * b * Q) (p2 * Q)); try reflexivity; exfalso; nia. }
  assert (R5 : ((lo + hi) * (4 * M * Q) <=? 2 * (p1 * Q)) = ((lo + hi) * (4 * M * Q * J) <=? 2 * (p2 * Q))).
  { assert (LE : forall a b, (a <=? b) = (a <? b) || (a =? b)) by (intros a b; destruct (Z.leb_spec a b), (Z.ltb_spec a b), (Z.eqb_spec a b); try reflexivity; exfalso; lia).
    rewrite !LE, R1, R2, R3. reflexivity. }
  rewrite R1, R2, R3, R4, R5. reflexivity.
Qed.

Lemma round_root_scaled : forall g rm s x K j, okf g -> 0 < x -> 0 <= j -> quantum g < K -> 2 ^ sw g * 2 ^ (K + 1) <= root x * 2 ^ quantum g ->
  round_to g rm s (root (x * (2 ^ j * 2 ^ j))) (2 ^ (K + 1 + j)) = round_to g rm s (root x) (2 ^ (K + 1)).
Proof.
  intros g rm s x K j Og Hx Hj HK BIG. pose proof (quantum_pos g Og) as Q0. pose proof (pow2_pos j Hj) as JP.
  pose proof Og as [He Hs]. pose proof (pow2_pos (sw g) ltac:(lia)) as SP. pose proof (pow2_pos (K + 1) ltac:(lia)) as KP. pose proof (pow2_pos (quantum g) ltac:(lia)) as QP.
  assert (RP : 0 < root x) by nia.
  destruct (root_scaled x j Hx Hj) as [E | C].
  { rewrite E, Z.pow_add_r by lia. apply round_to_scale; assumption. }
  set (p1 := root x) in *. set (p2 := root (x * (2 ^ j * 2 ^ j))) in *. clearbody p1 p2. set (q := quantum g) in *. set (m := K - q).
  replace (K + 1) with (q + m + 1) in * by (unfold m; ring). assert (HM : 1 <= m) by (unfold m; lia). clearbody m.
  assert (CMP : forall v, (v * 2 ^ (q + m + 1) <= p1 * 2 ^ q <-> v * 2 ^ (q + m + 1 + j) <= p2 * 2 ^ q) /\ v * 2 ^ (q + m + 1) <> p1 * 2 ^ q /\ v * 2 ^ (q + m + 1 + j) <> p2 * 2 ^ q).
  { intros v. rewrite (Z.pow_add_r 2 (q + m + 1) j) by lia. replace (q + m + 1) with (1 + m + q) by ring. rewrite (Z.pow_add_r 2 (1 + m) q), (Z.pow_add_r 2 1 m) by lia. change (2 ^ 1) with 2.
    destruct (C (v * 2 ^ m)) as (C1 & C2 & C3). clear - QP JP C1 C2 C3. set (M := 2 ^ m) in *. set (Q := 2 ^ q) in *. set (J := 2 ^ j) in *. clearbody M Q J.
    replace (v * (2 * M * Q)) with (2 * (v * M) * Q) by ring. replace (v * (2 * M * Q * J)) with (2 * (v * M * J) * Q) by ring. set (a := v * M) in *. set (b := a * J) in *. clearbody a b.
    assert (C3' : 2 * b <> p2) by exact C3. repeat split; intros; nia. }
  assert (P2 : 0 < p2). { destruct (C 0) as (C1 & _). rewrite Z.mul_0_l, Z.mul_0_r in C1. apply C1. exact RP. }
  assert (KP2 : 0 < 2 ^ (q + m + 1 + j)) by (apply pow2_pos; lia).
  destruct (round_to_char g rm s p1 _ Og RP KP) as (l1 & t1 & H1 & B1 & E1 & T1 & _). destruct (round_to_char g rm s p2 _ Og P2 KP2) as (l2 & t2 & H2 & B2 & E2 & T2 & _).
  fold q in B1, E1, T1, B2, E2, T2. cbv zeta in E1, E2.
  assert (L : l2 = l1).
  { apply (floor_unique g (2 ^ (q + m + 1)) (p1 * 2 ^ q) l2 l1 Og KP H2 H1); [| exact B1].
    destruct (CMP (val g l2)) as (D1 & _). destruct (CMP (val g (l2 + 1))) as (D2 & _). clear - D1 D2 B2. lia. }
  subst l2. rewrite E1, E2. rewrite <- (goes_up_same rm s _ _ _ q m j p1 p2) by (try assumption; lia).
  destruct (CMP (val g l1)) as (_ & D1 & D2). replace (val g l1 * 2 ^ (q + m + 1) =? p1 * 2 ^ q) with false by (symmetry; apply Z.eqb_neq; exact D1).
  replace (val g l1 * 2 ^ (q + m + 1 + j) =? p2 * 2 ^ q) with false by (symmetry; apply Z.eqb_neq; exact D2).
  rewrite (T1 BIG), T2; [reflexivity |]. destruct (CMP (2 ^ sw g)) as (D & _). apply D. exact BIG.
Qed.

(** ** A square root is not near a midpoint *)
Lemma sqrt_core : forall w A s x k J h, 0 <= w -> 0 < A < 2 ^ (w + 1) -> 0 <= s -> x = A * 2 ^ s -> 0 <= k < 2 ^ (w + 1) -> 1 <= h -> h + w + 2 <= J -> 2 ^ w <= k \/ 2 * J <= s ->
  let T := (2 * k + 1) * 2 ^ J in Z.abs (2 * T - root x) <= 2 ^ h -> T * T = x.
Proof.
  intros w A s x k J h Hw HA Hs Ex Hk Hh HJ KS T NEAR.
  assert (Hx : 0 < x) by (rewrite Ex; pose proof (pow2_pos s Hs); nia).
  pose proof (Z.sqrt_spec x ltac:(lia)) as [S1 S2]. pose proof (Z.sqrt_nonneg x) as S0. unfold Z.succ in S2.
  assert (EH : 2 ^ h = 2 * 2 ^ (h - 1)) by (rewrite <- Z.pow_succ_r by lia; f_equal; lia). pose proof (pow2_pos (h - 1) ltac:(lia)) as HP.
  unfold root in NEAR. rewrite EH in NEAR.
  set (r := Z.sqrt x) in *. set (H := 2 ^ (h - 1)) in *.
  assert (JH : 2 ^ (w + 1) * (4 * H) <= 2 ^ J).
  { unfold H. change 4 with (2 ^ 2). rewrite <- !Z.pow_add_r by lia. apply Z.pow_le_mono_r; lia. }
  assert (TB : T <= 2 * 2 ^ (w + 1) * 2 ^ J - 2 ^ J) by (unfold T; pose proof (pow2_pos J ltac:(lia)); nia).
  pose proof (pow2_pos J ltac:(lia)) as JP. assert (W1 : 0 < 2 ^ (w + 1)) by (apply pow2_pos; lia).
  assert (T0 : 0 < T) by (unfold T; nia).
  (* the difference of the squares is small *)
  assert (D : Z.abs (T * T - x) < 2 ^ J * 2 ^ J).
  { assert (HT : 2 * H * T + H * H < 2 ^ J * 2 ^ J).
    { clear - JH TB HP JP W1 T0. set (W := 2 ^ (w + 1)) in *. set (j := 2 ^ J) in *. clearbody W j.
      assert (HJ : 4 * H <= j) by nia.
      assert (A1 : 2 * H * T <= 2 * H * (2 * W * j) - 2 * H * j) by nia. assert (A2 : 2 * H * (2 * W * j) <= j * j) by nia. nia. }
    assert (U1 : T * T - x <= 2 * H * T).
    { destruct (Z.le_gt_cases T r) as [L | L]; [nia |]. assert (L2 : T - r <= H) by (destruct (r * r =? x); lia). clear - L L2 S1 S0 HP. nia. }
    assert (U2 : x - T * T <= 2 * H * T + H * H).
    { destruct (Z.eqb_spec (r * r) x) as [E | E].
      - destruct (Z.le_gt_cases r T) as [L | L]; [nia |]. assert (L2 : r - T <= H) by lia. rewrite <- E. clear - L L2 S0 T0 HP. nia.
      - destruct (Z.le_gt_cases (r + 1) T) as [L | L]; [nia |]. assert (L2 : r + 1 - T <= H) by lia. clear - L L2 S0 S2 T0 HP. nia. }
    lia. }
  assert (DV : 2 * J <= s).
  { destruct KS as [KS | KS]; [| exact KS]. destruct (Z.le_gt_cases (2 * J) s) as [L | L]; [exact L | exfalso].
    assert (XB : x < 2 ^ (w + 1) * (2 ^ J * 2 ^ J)).
    { rewrite Ex. apply Z.le_lt_trans with (A * (2 ^ J * 2 ^ J)); [| clear - HA JP; nia]. apply Z.mul_le_mono_nonneg_l; [lia |].
      rewrite <- Z.pow_add_r by lia. apply Z.pow_le_mono_r; lia. }
    assert (KB : 2 ^ (w + 1) * 2 ^ J + 2 ^ J <= T) by (unfold T; rewrite Z.pow_add_r by lia; change (2 ^ 1) with 2; clear - KS JP; nia).
    set (W := 2 ^ (w + 1)) in *. set (j := 2 ^ J) in *. clear - XB KB D W1 JP. clearbody W j T. 
    assert ((W * j + j) * (W * j + j) <= T * T) by nia. assert (W * (j * j) + j * j <= (W * j + j) * (W * j + j)) by nia. lia. }
  assert (MX : exists y, x = y * (2 ^ J * 2 ^ J)).
  { exists (A * 2 ^ (s - 2 * J)). rewrite Ex, <- Z.mul_assoc. f_equal. rewrite <- !Z.pow_add_r by lia. f_equal. ring. }
  destruct MX as [y Ey]. assert (ET : T * T = (2 * k + 1) * (2 * k + 1) * (2 ^ J * 2 ^ J)) by (unfold T; ring).
  rewrite Ey, ET in *. clear - D JP. set (z := (2 * k + 1) * (2 * k + 1)) in *. set (jj := 2 ^ J * 2 ^ J) in *. assert (0 < jj) by (unfold jj; nia). clearbody z jj.
  rewrite <- Z.mul_sub_distr_r, Z.abs_mul, (Z.abs_eq jj) in D by lia.
  assert (Z.abs (z - y) = 0) by nia. assert (z = y) by lia. subst. reflexivity.
Qed.

Lemma mid_exponent : forall wf wg n J h p, 2 * wg + 3 <= wf -> 1 <= wg -> 0 <= n < 2 ^ (wg + 1) -> 0 <= J -> 1 <= h ->
  Z.abs (2 * ((2 * n + 1) * 2 ^ J) - p) <= 2 ^ h -> 2 * 2 ^ (wf + h) <= p -> h + wg + 2 <= J.
Proof.
  intros wf wg n J h p SW Hg Hn HJ Hh NEAR LB. destruct (Z.le_gt_cases (h + wg + 2) J) as [G | G]; [exact G | exfalso].
  assert (TB : (2 * n + 1) * 2 ^ J <= 2 ^ (wg + 2) * 2 ^ J - 2 ^ J).
  { pose proof (pow2_pos J HJ) as JP. replace (wg + 2) with (Z.succ (wg + 1)) by ring. rewrite Z.pow_succ_r by (clear - Hg; lia). clear - Hn JP. set (a := 2 ^ (wg + 1)) in *. clearbody a. nia. }
  rewrite <- Z.pow_add_r in TB by (clear - Hg HJ; lia).
  assert (G1 : 2 ^ (wg + 2 + J) <= 2 ^ (wf + h)) by (apply Z.pow_le_mono_r; clear - G SW Hg; lia).
  set (T := (2 * n + 1) * 2 ^ J) in *. clearbody T.
  assert (HJ2 : 2 * 2 ^ J <= 2 ^ h) by (clear - NEAR LB TB G1; lia).
  assert (JH : J + 1 <= h).
  { apply (Z.pow_le_mono_r_iff 2); [clear; lia | clear - Hh; lia |]. rewrite Z.pow_add_r by (clear - HJ; lia). change (2 ^ 1) with 2. clear - HJ2. lia. }
  assert (G2 : 2 ^ (wg + 2 + J) <= 2 ^ (wf + h - 1)) by (apply Z.pow_le_mono_r; clear - JH SW Hg; lia).
  assert (G3 : 2 ^ h <= 2 ^ (wf + h - 1)) by (apply Z.pow_le_mono_r; clear - SW Hg; lia).
  assert (G4 : 2 ^ (wf + h) = 2 * 2 ^ (wf + h - 1)) by (rewrite <- Z.pow_succ_r by (clear - SW Hg Hh; lia); f_equal; clear; lia).
  pose proof (pow2_pos J HJ) as JP. clear - NEAR LB TB G2 G3 G4 JP. lia.
Qed.

(** ** The two roundings are one *)
Section Wide.
Variables (f g : fmt) (k : Z).
Hypothesis Of : okf f.
Hypothesis Og : okf g.
Hypothesis SW : 2 * sw g + 3 <= sw f.
Hypothesis QU : quantum g < quantum f.
Hypothesis Hk : 1 <= k.
Let D := 2 ^ (quantum f - quantum g).

Lemma val_mid : forall P Y, 0 <= P -> 2 * Y = (val g P + val g (P + 1)) * D ->
  exists n e, 0 <= e /\ 0 <= n < 2 ^ (sw g + 1) /\ (e = 0 \/ 2 ^ sw g <= n) /\ Y = (2 * n + 1) * 2 ^ (e + (quantum f - quantum g - 1)).
Proof.
  intros P Y HP E. destruct (val_succ g P Og HP) as (e & n & _ & He & Hn & C & V1 & V2).
  exists n, e. split; [exact He |]. split; [exact Hn |]. split; [exact C |]. rewrite V1, V2 in E.
  assert (ED : D = 2 * 2 ^ (quantum f - quantum g - 1)) by (unfold D; rewrite <- Z.pow_succ_r by lia; f_equal; lia). rewrite ED in E.
  rewrite Z.pow_add_r by lia. nia.
Qed.

Lemma root_mid : forall A al x L U, 0 < A < 2 ^ (sw g + 1) -> 0 <= al -> x = A * 2 ^ al * D * 2 ^ (quantum f + 2 * k) ->
  0 <= U -> 2 ^ (2 * L) <= x < 2 ^ (2 * U) -> sw f + k <= L -> 2 ^ (U - k) <= val f (top f - 1) ->
  let r := 2 ^ (quantum f + k + 1) in let X := root x * 2 ^ quantum f in
  2 ^ sw f * r <= X /\ X < val f (top f - 1) * r /\
  forall s, let Y := magnitude f (fst (round_to f 0 s (root x) r)) in
    forall P, 0 <= P -> 2 * Y = (val g P + val g (P + 1)) * D -> Y * r = X.
Proof.
  intros A al x L U HA Hal Ex HU HB HL HT r X. pose proof Of as [Hef Hsf]. pose proof Og as [Heg Hsg]. pose proof (quantum_pos f Of) as QF. pose proof (quantum_pos g Og) as QG.
  assert (Hx : 0 < x) by (pose proof (pow2_pos (2 * L) ltac:(lia)); lia).
  destruct (root_bounds x L U Hx ltac:(lia) HU (proj1 HB) (proj2 HB)) as [RL RU].
  assert (ER : r = 2 * 2 ^ k * 2 ^ quantum f) by (unfold r; replace (quantum f + k + 1) with (1 + k + quantum f) by ring; rewrite !Z.pow_add_r by lia; reflexivity).
  pose proof (pow2_pos (quantum f) ltac:(lia)) as QP. pose proof (pow2_pos k ltac:(lia)) as KP.
  assert (RP : 0 < r) by (rewrite ER; clear - QP KP; nia).
  assert (LB : 2 ^ sw f * r <= X).
  { unfold X. rewrite ER. assert (E : 2 ^ sw f * 2 ^ k <= 2 ^ L) by (rewrite <- Z.pow_add_r by lia; apply Z.pow_le_mono_r; lia). clear - E RL QP. nia. }
  assert (KU : k <= U). { assert (L < U); [| lia]. apply (Z.pow_lt_mono_r_iff 2); [lia | lia |]. lia. }
  assert (UB : X < val f (top f - 1) * r).
  { unfold X. rewrite ER. assert (E : 2 ^ U = 2 ^ (U - k) * 2 ^ k) by (rewrite <- Z.pow_add_r by lia; f_equal; ring). rewrite E in RU. set (v := val f (top f - 1)) in *. clearbody v.
    clear - RU QP HT KP. apply Z.lt_le_trans with (2 * (2 ^ (U - k) * 2 ^ k) * 2 ^ quantum f); [apply Z.mul_lt_mono_pos_r; assumption |].
    replace (v * (2 * 2 ^ k * 2 ^ quantum f)) with (2 * (v * 2 ^ k) * 2 ^ quantum f) by ring. apply Z.mul_le_mono_nonneg_r; [lia |]. nia. }
  split; [exact LB |]. split; [exact UB |]. intros s Y P HP MID.
  assert (PP : 0 < root x) by (pose proof (pow2_pos L ltac:(lia)); lia).
  destruct (rounded_near f 0 s (root x) r Of PP RP LB UB) as (e & He & NL & _ & NR). specialize (NR eq_refl). fold Y X in NR, NL.
  destruct (val_mid P Y HP MID) as (n & e' & He' & Hn & C & EY).
  set (J := e' + (quantum f - quantum g - 1) + k). set (h := e + k).
  assert (ET : Y * 2 ^ k = (2 * n + 1) * 2 ^ J) by (unfold J; rewrite EY, <- Z.mul_assoc, <- Z.pow_add_r by (clear - He' QU Hk; lia); reflexivity).
  assert (PH : 2 ^ h = 2 ^ e * 2 ^ k) by (unfold h; apply Z.pow_add_r; clear - He Hk; lia).
  assert (NEAR : Z.abs (2 * ((2 * n + 1) * 2 ^ J) - root x) <= 2 ^ h).
  { rewrite <- ET, PH. unfold X in NR. rewrite ER in NR. clear - NR QP. replace (Y * (2 * 2 ^ k * 2 ^ quantum f) - root x * 2 ^ quantum f) with ((2 * (Y * 2 ^ k) - root x) * 2 ^ quantum f) in NR by ring.
    rewrite Z.abs_mul, (Z.abs_eq (2 ^ quantum f)) in NR by lia. nia. }
  assert (H1 : 1 <= h) by (clear - He Hk; unfold h; lia). assert (J0 : 0 <= J) by (clear - He' QU Hk; unfold J; lia).
  assert (NL' : 2 * 2 ^ (sw f + h) <= root x).
  { unfold X in NL. rewrite ER in NL. unfold h. rewrite Z.add_assoc, (Z.pow_add_r 2 (sw f + e) k) by (clear - He Hsf Hk; lia). clear - NL QP. set (a := 2 ^ (sw f + e)) in *. clearbody a. nia. }
  assert (HJ : h + sw g + 2 <= J) by (clear - NEAR NL' Hn SW Hsg H1 J0; apply (mid_exponent (sw f) (sw g) n J h (root x)); solve [assumption | lia]).
  assert (EX : x = A * 2 ^ (al + (quantum f - quantum g) + (quantum f + 2 * k))).
  { rewrite Ex. unfold D. rewrite !Z.pow_add_r by (clear - Hal QU QF Hk; lia). ring. }
  assert (SQ : (2 * n + 1) * 2 ^ J * ((2 * n + 1) * 2 ^ J) = x).
  { assert (S0 : 0 <= al + (quantum f - quantum g) + (quantum f + 2 * k)) by (clear - Hal QU QF Hk; lia). assert (G0 : 0 <= sw g) by (clear - Hsg; lia).
    apply (sqrt_core (sw g) A _ x n J h G0 HA S0 EX Hn H1 HJ); [| exact NEAR].
    destruct C as [-> | C]; [right; clear - Hal QU QG; unfold J; lia | left; exact C]. }
  assert (RT : root x = 2 * ((2 * n + 1) * 2 ^ J)).
  { unfold root. rewrite <- SQ. rewrite Z.sqrt_square; [rewrite Z.eqb_refl; ring |]. pose proof (pow2_pos J J0) as JP. clear - JP Hn. nia. }
  unfold X. rewrite RT, ER, <- ET. ring.
Qed.

Lemma root_twice : forall rm A al x L U, 0 <= rm <= 3 -> 0 < A < 2 ^ (sw g + 1) -> 0 <= al -> x = A * 2 ^ al * D * 2 ^ (quantum f + 2 * k) ->
  0 <= U -> 2 ^ (2 * L) <= x < 2 ^ (2 * U) -> sw f + k <= L -> 2 ^ (U - k) <= val f (top f - 1) -> sw g + (quantum f - quantum g) + k <= L ->
  let r := 2 ^ (quantum f + k + 1) in let z := round_to f rm false (root x) r in
  is_nan f (fst z) = false /\ is_inf f (fst z) = false /\ sign f (fst z) = false /\ 0 < magnitude f (fst z) /\
  let w := round_to g rm false (magnitude f (fst z)) (2 ^ quantum f) in
  (fst w, Z.lor (snd z) (snd w)) = round_to g rm false (root x) r.
Proof.
  intros rm A al x L U Hrm HA Hal Ex HU HB HL HT HL2 r z. pose proof Of as [Hef Hsf]. pose proof Og as [Heg Hsg]. pose proof (quantum_pos f Of) as QF. pose proof (quantum_pos g Og) as QG.
  destruct (root_mid A al x L U HA Hal Ex HU HB HL HT) as (LB & UB & MID). fold r in LB, UB, MID.
  assert (L0 : 0 <= L) by (clear - HL Hk Hsf; lia).
  assert (Hx : 0 < x) by (apply Z.lt_le_trans with (2 ^ (2 * L)); [apply pow2_pos; clear - L0; lia | apply HB]).
  destruct (root_bounds x L U Hx L0 HU (proj1 HB) (proj2 HB)) as [RL _].
  assert (RP : 0 < root x) by (pose proof (pow2_pos L L0); clear - H RL; lia).
  assert (DP : 0 < r) by (apply pow2_pos; clear - QF Hk; lia).
  assert (SW' : sw g + 2 <= sw f + 1) by (clear - SW Hsg; lia).
  assert (MID' : rm = 0 -> forall P, 0 <= P -> 2 * magnitude f (fst (round_to f rm false (root x) r)) = (val g P + val g (P + 1)) * 2 ^ (quantum f - quantum g) -> magnitude f (fst (round_to f rm false (root x) r)) * r = root x * 2 ^ quantum f).
  { intros -> P HP E. exact (MID false P HP E). }
  destruct (twice_nearly f g Of Og SW' QU rm false (root x) r Hrm RP DP LB UB MID') as (SG & NN & NI & YP & CONCL). clear MID MID'.
  fold z in SG, NN, NI, YP, CONCL.
  split; [exact NN |]. split; [exact NI |]. split; [exact SG |]. split; [exact YP |]. intros w.
  assert (BIGX : 2 ^ sw g * 2 ^ (quantum f - quantum g) * r <= root x * 2 ^ quantum f).
  { assert (ER : r = 2 * 2 ^ k * 2 ^ quantum f) by (unfold r; replace (quantum f + k + 1) with (1 + k + quantum f) by ring; rewrite !Z.pow_add_r by (clear - Hk QF; lia); reflexivity).
    assert (P : 2 ^ sw g * 2 ^ (quantum f - quantum g) * 2 ^ k <= 2 ^ L) by (rewrite <- !Z.pow_add_r by (clear - Hk QU Hsg; lia); apply Z.pow_le_mono_r; [clear; lia | exact HL2]).
    rewrite ER. pose proof (pow2_pos (quantum f) ltac:(clear - QF; lia)) as QP. set (a := 2 ^ sw g * 2 ^ (quantum f - quantum g)) in *. clearbody a.
    replace (a * (2 * 2 ^ k * 2 ^ quantum f)) with (2 * (a * 2 ^ k) * 2 ^ quantum f) by ring. apply Z.mul_le_mono_nonneg_r; [clear - QP; lia | clear - P RL; lia]. }
  destruct (round_to_char f rm false (root x) r Of RP DP) as (lf & tf & HLF & BF & EF & TF & _). cbv zeta in EF. fold z in EF. rewrite (TF LB) in EF.
  set (PF := if goes_up _ _ _ _ _ _ _ then _ else _) in *.
  assert (RF : rounded f rm false r (root x * 2 ^ quantum f) lf PF) by (split; [exact HLF | split; [exact BF | reflexivity]]).
  destruct (top_range f Of) as (TR1 & TR2 & TR3). pose proof (rounded_nonneg _ _ _ _ _ _ _ RF) as PF0.
  assert (PFB : PF < top f).
  { destruct (rounded_mono f rm false _ _ lf PF (top f - 1) Of DP RF ltac:(clear - TR1; lia)) as [_ M]. specialize (M ltac:(apply Z.lt_le_incl; exact UB)).
    apply val_le in M; [clear - M; lia | exact Of | exact PF0 | clear - TR1; lia]. }
  assert (EZ : z = (with_sign f false PF, if val f lf * r =? root x * 2 ^ quantum f then 0 else fNX)).
  { rewrite EF. unfold packed. replace (top f <=? PF) with false by (symmetry; apply Z.leb_gt; exact PFB). reflexivity. }
  assert (YV : magnitude f (fst z) = val f PF) by (rewrite EZ; apply val_magnitude; [exact Of | clear - PF0 PFB TR2; lia]).
  assert (ZF : snd z = 0 \/ snd z = fNX) by (rewrite EZ; cbn [snd]; destruct (_ =? _); auto).
  assert (BIGY : 2 ^ sw g * 2 ^ (quantum f - quantum g) <= magnitude f (fst z)).
  { rewrite YV. destruct (representable f 1 (sw g + (quantum f - quantum g)) Of) as (Q & HQ & VQ); [| clear - Hsg QU; lia |].
    { split; [clear; lia |]. apply Z.pow_gt_1; clear - Hsf; lia. }
    destruct (rounded_mono f rm false _ _ lf PF Q Of DP RF HQ) as [M _]. rewrite VQ, Z.mul_1_l, Z.pow_add_r in M by (clear - Hsg QU; lia). exact (M BIGX). }
  clear EF TF BF RF EZ YV. clearbody PF.
  assert (NRW : narrowed f g rm false (magnitude f (fst z)) w /\ Z.land (snd w) fUF = 0).
  { destruct (narrow_char f g Og QU rm false (magnitude f (fst z)) YP) as (ly & HLy & BL & tiny & E & T1 & _).
    assert (TB : tiny_before f g (magnitude f (fst z)) = false) by (unfold tiny_before; apply Z.ltb_ge; exact BIGY).
    fold w in E. rewrite E. split.
    - exists ly. split; [exact HLy |]. split; [exact BL |]. rewrite TB, (T1 TB). reflexivity.
    - rewrite (T1 TB). unfold packed. destruct (top g <=? _); [reflexivity |]. cbn [snd]. destruct (_ =? _); reflexivity. }
  destruct NRW as [NRW NUF]. destruct (CONCL w NRW) as [V CL]. clear CONCL.
  assert (N : nearly g false (fst w, Z.lor (snd z) (snd w)) (round_to g rm false (root x) r)).
  { apply CL. intros SMALL. exfalso. apply (Z.lt_irrefl (root x * 2 ^ quantum f)). apply Z.lt_le_trans with (2 := BIGX). exact SMALL. }
  destruct N as [N1 N2]. cbn [fst snd] in N1, N2. rewrite (surjective_pairing (round_to g rm false (root x) r)), <- N1. f_equal.
  destruct N2 as [N2 | (_ & N2 & _)]; [exact N2 | exfalso].
  assert (UU : Z.land (Z.lor (snd z) (snd w)) fUF = 0) by (rewrite Z.land_lor_distr_l, NUF; destruct ZF as [-> | ->]; reflexivity).
  rewrite N2 in UU. discriminate UU.
Qed.
End Wide.
