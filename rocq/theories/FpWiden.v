(** Exactness of rounding when the value is representable, and single to double. *)
From Coq Require Import ZArith Bool List Lia.
From Verif Require Import Bits IeeeSpec FpSpec IntModel FpModel FpProofs FpCvt.
Import ListNotations.
Local Open Scope Z_scope.

Lemma fields : forall f s E F, okf f -> 0 <= E < 2 ^ ew f -> 0 <= F < 2 ^ sw f ->
  let x := with_sign f s (E * 2 ^ sw f + F) in
  sign f x = s /\ expo f x = E /\ frac f x = F /\ 0 <= x < 2 ^ width f.
Proof.
  intros f s E F Ok HE HF x. pose proof Ok as [He Hs].
  assert (P : 0 < 2 ^ sw f) by (apply pow2_pos; lia). assert (Q : 0 < 2 ^ ew f) by (apply pow2_pos; lia).
  assert (WW : 2 ^ (width f - 1) = 2 ^ ew f * 2 ^ sw f) by (rewrite <- Z.pow_add_r by lia; f_equal; unfold width; lia).
  assert (R : 0 <= E * 2 ^ sw f + F < 2 ^ (width f - 1)) by (rewrite WW; nia).
  pose proof (with_sign_range f s _ Ok R) as XR. fold x in XR.
  assert (X : x = (Z.b2z s * 2 ^ ew f + E) * 2 ^ sw f + F) by (unfold x, with_sign; rewrite WW; ring).
  assert (S : sign f x = s).
  { unfold sign, x. rewrite with_sign_bits; [| exact Ok | unfold width; lia | exact R].
    rewrite Z.ltb_irrefl, Z.eqb_refl. reflexivity. }
  split; [exact S |]. split; [| split; [| exact XR]].
  - unfold expo. rewrite X, Z.div_add_l, (Z.div_small F), Z.add_0_r by lia.
    rewrite Z.add_comm, Z.mod_add by lia. apply Z.mod_small. exact HE.
  - unfold frac. rewrite X, Z.add_comm, Z.mod_add by lia. apply Z.mod_small. exact HF.
Qed.

Lemma scaled_exact : forall rm s p q sw lp m, 0 <= q -> 0 <= sw -> 0 <= lp -> 0 < p -> p * 2 ^ sw = m * 2 ^ lp ->
  scaled rm s p (2 ^ q) (lp - q - sw) = (m, true).
Proof.
  intros rm s p q sw lp m Hq Hs Hl Hp E. unfold scaled. set (u := lp - q - sw).
  assert (PE : p * 2 ^ Z.max 0 (- u) = m * (2 ^ q * 2 ^ Z.max 0 u)).
  { destruct (Z.le_gt_cases 0 u) as [U | U].
    - rewrite Z.max_l, Z.max_r by lia. rewrite Z.pow_0_r, Z.mul_1_r, <- Z.pow_add_r by lia.
      apply (Z.mul_cancel_r _ _ (2 ^ sw)); [pose proof (pow2_pos sw); lia |].
      rewrite E, <- Z.mul_assoc, <- Z.pow_add_r by lia. f_equal. f_equal. unfold u. lia.
    - rewrite Z.max_r, Z.max_l by lia. rewrite Z.pow_0_r, Z.mul_1_r.
      apply (Z.mul_cancel_r _ _ (2 ^ lp)); [pose proof (pow2_pos lp); lia |].
      rewrite <- Z.mul_assoc, <- Z.pow_add_r by lia.
      replace (m * 2 ^ q * 2 ^ lp) with (m * 2 ^ lp * 2 ^ q) by ring. rewrite <- E.
      rewrite <- Z.mul_assoc, <- Z.pow_add_r by lia. f_equal. f_equal. unfold u. lia. }
  rewrite PE. set (r := 2 ^ q * 2 ^ Z.max 0 u). assert (R : 0 < r).
  { apply Z.mul_pos_pos; apply pow2_pos; lia. }
  rewrite Z.mod_mul by lia. f_equal. unfold round_mag. rewrite Z.mod_mul, Z.div_mul by lia.
  replace (r <? 2 * 0) with false by (symmetry; apply Z.ltb_ge; lia).
  replace (r =? 2 * 0) with false by (symmetry; apply Z.eqb_neq; lia).
  replace (r <=? 2 * 0) with false by (symmetry; apply Z.leb_gt; lia).
  change (0 <? 0) with false. rewrite !andb_false_r. cbn [orb andb].
  destruct rm as [| [[|[]|]|[[]|[]|]|] |]; reflexivity.
Qed.

Lemma floor_log2_pow : forall p q, 0 < p -> 0 <= q -> floor_log2 p (2 ^ q) = Z.log2 p - q.
Proof.
  intros p q Hp Hq. unfold floor_log2. rewrite Z.log2_pow2 by exact Hq. set (e := Z.log2 p - q).
  pose proof (Z.log2_spec p Hp) as [L _]. pose proof (Z.log2_nonneg p) as LN.
  replace (p * 2 ^ Z.max 0 (- e) <? 2 ^ q * 2 ^ Z.max 0 e) with false; [reflexivity |].
  symmetry. apply Z.ltb_ge. rewrite <- Z.pow_add_r by lia. destruct (Z.le_gt_cases 0 e).
  - rewrite (Z.max_l 0 (- e)), (Z.max_r 0 e), Z.pow_0_r, Z.mul_1_r by lia.
    replace (q + e) with (Z.log2 p) by (unfold e; lia). exact L.
  - rewrite (Z.max_r 0 (- e)), (Z.max_l 0 e), Z.add_0_r by lia.
    replace q with (Z.log2 p + (- e)) at 1 by (unfold e; lia). rewrite Z.pow_add_r by lia.
    apply Z.mul_le_mono_nonneg_r; [pose proof (pow2_pos (- e)); lia | exact L].
Qed.

(** A representable normal value is rounded to itself. *)
Lemma round_to_exact : forall g rm s k x q, okf g -> 0 < k < 2 ^ (sw g + 1) -> 0 <= x -> 0 <= q ->
  1 - bias g <= Z.log2 (k * 2 ^ x) - q <= bias g ->
  let p := k * 2 ^ x in
  exists m, p * 2 ^ sw g = m * 2 ^ Z.log2 p /\ 2 ^ sw g <= m < 2 ^ (sw g + 1) /\
    round_to g rm s p (2 ^ q) = (with_sign g s ((Z.log2 p - q + bias g) * 2 ^ sw g + (m - 2 ^ sw g)), 0).
Proof.
  intros g rm s k x q Ok Hk Hx Hq HN p. pose proof Ok as [He Hs].
  assert (XP : 0 < 2 ^ x) by (apply pow2_pos; lia).
  assert (HP : 0 < p) by (apply Z.mul_pos_pos; lia).
  pose proof (Z.log2_spec p HP) as [L1 L2]. pose proof (Z.log2_nonneg p) as LN. fold p in HN.
  set (lp := Z.log2 p) in *.
  assert (LX : x <= lp <= x + sw g).
  { split.
    - unfold lp. apply Z.log2_le_pow2; [exact HP |]. unfold p. nia.
    - enough (lp < x + (sw g + 1)) by lia. unfold lp. apply Z.log2_lt_pow2; [exact HP |].
      unfold p. rewrite Z.pow_add_r by lia. nia. }
  assert (LP : Z.log2 p = lp) by reflexivity. clearbody lp.
  exists (k * 2 ^ (x + sw g - lp)). set (m := k * 2 ^ (x + sw g - lp)).
  assert (EM : p * 2 ^ sw g = m * 2 ^ lp).
  { unfold p, m. rewrite <- !Z.mul_assoc, <- !Z.pow_add_r by lia. f_equal. f_equal. lia. }
  split; [exact EM |].
  assert (LPP : 0 < 2 ^ lp) by (apply pow2_pos; lia). assert (SP : 0 < 2 ^ sw g) by (apply pow2_pos; lia).
  assert (MR : 2 ^ sw g <= m < 2 ^ (sw g + 1)).
  { rewrite <- Z.add_1_r in L2. rewrite !Z.pow_add_r in * by lia. change (2 ^ 1) with 2 in *. clearbody m p. clear - EM L1 L2 SP LPP. split.
    - apply (Z.mul_le_mono_pos_r _ _ (2 ^ lp) LPP). rewrite <- EM. nia.
    - apply (Z.mul_lt_mono_pos_r (2 ^ lp) _ _ LPP). rewrite <- EM. nia. }
  split; [exact MR |].
  assert (B2 : 2 * bias g = 2 ^ ew g - 2).
  { unfold bias. replace (2 ^ ew g) with (2 * 2 ^ (ew g - 1)); [ring |]. rewrite <- Z.pow_succ_r by lia. f_equal. lia. }
  unfold round_to. rewrite floor_log2_pow by assumption.
  rewrite LP, Z.max_l by (unfold quantum; lia).
  rewrite (scaled_exact rm s p q (sw g) lp m) by (try assumption; lia).
  replace ((lp - q - sw g + quantum g) * 2 ^ sw g + m) with ((lp - q + bias g) * 2 ^ sw g + (m - 2 ^ sw g)) by (unfold quantum; ring).
  replace ((2 ^ ew g - 1) * 2 ^ sw g <=? (lp - q + bias g) * 2 ^ sw g + (m - 2 ^ sw g)) with false; [reflexivity |].
  symmetry. apply Z.leb_gt. rewrite Z.pow_add_r in MR by lia. change (2 ^ 1) with 2 in MR.
  clearbody m p. clear - MR B2 HN SP. nia.
Qed.

Lemma fmt_facts_double : okf double.
Proof. apply formats_ok. right; right; left; reflexivity. Qed.

Lemma single_double : forall rm a, 0 <= a < 2 ^ 32 -> is_nan single a = false ->
  widened single double a (fst (ieee_cvt single double rm a)) (snd (ieee_cvt single double rm a)).
Proof.
  intros rm a Ha N. assert (OkS : okf single) by (apply formats_ok; right; left; reflexivity).
  assert (SNAN : is_snan single a = false) by (unfold is_snan; rewrite N; reflexivity).
  unfold ieee_cvt, widened. rewrite N, SNAN.
  destruct (is_inf single a) eqn:INF; cbn [fst snd].
  { split; [reflexivity |]. destruct (sign single a); (split; [split; vm_compute; congruence |]);
      (split; [reflexivity |]); (split; [reflexivity |]); (split; [reflexivity |]); discriminate. }
  unfold round_rat. rewrite units_signed.
  pose proof (sig_of_range single a OkS) as SR. change (2 ^ (sw single + 1)) with (2 ^ 24) in SR.
  pose proof (exp_of_nonneg single a OkS) as XN.
  assert (XB : exp_of single a <= 253).
  { unfold exp_of, expo. pose proof (Z.mod_pos_bound (a / 2 ^ sw single) (2 ^ ew single) eq_refl) as B.
    assert (expo single a <> 255).
    { intro E. unfold is_nan, is_inf, special in *. change (2 ^ ew single - 1) with 255 in *. rewrite E in *. cbn [andb Z.eqb Pos.eqb] in *.
      destruct (frac single a =? 0); discriminate. }
    unfold expo in *. change (2 ^ ew single) with 256 in *. destruct (_ =? 0); lia. }
  destruct (Z.eqb_spec (sig_of single a) 0) as [S0 | S0].
  - rewrite S0, Z.mul_0_l. unfold signed. destruct (sign single a); cbn [Z.opp Z.eqb fst snd];
      (split; [reflexivity |]); (split; [split; vm_compute; congruence |]); repeat (split; [reflexivity |]); intro; reflexivity.
  - set (k := sig_of single a) in *. set (x := exp_of single a) in *. clearbody k x.
    assert (XP : 0 < 2 ^ x) by (apply pow2_pos; exact XN).
    assert (PP : 0 < k * 2 ^ x) by (apply Z.mul_pos_pos; lia).
    assert (SGN : signed (sign single a) (k * 2 ^ x) <> 0 /\ (signed (sign single a) (k * 2 ^ x) <? 0) = sign single a /\ Z.abs (signed (sign single a) (k * 2 ^ x)) = k * 2 ^ x).
    { clear - PP. unfold signed. destruct (sign single a); split; try lia; split; lia. }
    destruct SGN as (NZ & LT & AB). rewrite (proj2 (Z.eqb_neq _ _) NZ), LT, AB. clear NZ LT.
    assert (LB : 0 <= Z.log2 (k * 2 ^ x) <= 276).
    { split; [apply Z.log2_nonneg |]. enough (Z.log2 (k * 2 ^ x) < 277) by lia. apply Z.log2_lt_pow2; [exact PP |].
      assert (2 ^ x <= 2 ^ 253) by (apply Z.pow_le_mono_r; lia). replace (2 ^ 277) with (2 ^ 24 * 2 ^ 253) by reflexivity.
      clear - H SR XP. nia. }
    change (quantum single) with 149 in *. change (quantum double) with 1074.
    destruct (round_to_exact double rm (sign single a) k x 149 fmt_facts_double) as (m & EM & MR & RT).
    { change (2 ^ (sw double + 1)) with (2 ^ 53). lia. }
    { exact XN. }
    { lia. }
    { change (bias double) with 1023. lia. }
    rewrite RT. cbn [fst snd]. clear RT. set (lp := Z.log2 (k * 2 ^ x)) in *. clearbody lp.
    change (bias double) with 1023. change (sw double) with 52 in *.
    destruct (fields double (sign single a) (lp - 149 + 1023) (m - 2 ^ 52) fmt_facts_double) as (F1 & F2 & F3 & F4).
    { change (2 ^ ew double) with 2048. lia. }
    { change (sw double) with 52. change (2 ^ (52 + 1)) with (2 * 2 ^ 52) in MR. lia. }
    change (sw double) with 52 in *. set (R := with_sign double (sign single a) ((lp - 149 + 1023) * 2 ^ 52 + (m - 2 ^ 52))) in *.
    clearbody R. split; [reflexivity |]. split; [exact F4 |]. split; [exact F1 |].
    assert (SPF : special double R = false) by (unfold special; rewrite F2; apply Z.eqb_neq; change (2 ^ ew double - 1) with 2047; lia).
    split; [unfold is_inf; rewrite SPF; reflexivity |]. split; [unfold is_nan; rewrite SPF; reflexivity |].
    intros _. unfold units, magnitude. rewrite F1, F2, F3. change (sw double) with 52.
    replace (lp - 149 + 1023 =? 0) with false by (symmetry; apply Z.eqb_neq; lia).
    assert (KEY : (2 ^ 52 + (m - 2 ^ 52)) * 2 ^ (lp - 149 + 1023 - 1) = k * 2 ^ x * 2 ^ (1074 - 149)).
    { replace (2 ^ 52 + (m - 2 ^ 52)) with m by ring. replace (lp - 149 + 1023 - 1) with (lp + 873) by ring.
      rewrite Z.pow_add_r by lia. rewrite Z.mul_assoc, <- EM. change (1074 - 149) with (52 + 873). rewrite (Z.pow_add_r 2 52 873) by lia. ring. }
    rewrite KEY. unfold signed. destruct (sign single a); ring.
Qed.
