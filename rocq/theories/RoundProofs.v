(** What [round_to] computes, by comparisons with the representable numbers, and rounding twice. *)
From Coq Require Import ZArith Bool List Lia.
From Verif Require Import Bits IeeeSpec FpSpec FpProofs FpCvt FpWiden FarithProofs.
Local Open Scope Z_scope.

(** The number a pattern without sign stands for, in quanta; the exponent is not bounded. *)
Definition val (f : fmt) (P : Z) : Z :=
  if P / 2 ^ sw f =? 0 then P mod 2 ^ sw f else (2 ^ sw f + P mod 2 ^ sw f) * 2 ^ (P / 2 ^ sw f - 1).

Lemma val_at : forall f g k, okf f -> 0 <= g -> 0 <= k <= 2 ^ (sw f + 1) -> g = 0 \/ 2 ^ sw f <= k ->
  val f (g * 2 ^ sw f + k) = k * 2 ^ g.
Proof.
  intros f g k [He Hs] Hg Hk HC. unfold val. assert (SP : 0 < 2 ^ sw f) by (apply pow2_pos; lia).
  rewrite Z.pow_add_r in Hk by lia. change (2 ^ 1) with 2 in Hk.
  assert (K : exists t F, k = t * 2 ^ sw f + F /\ 0 <= F < 2 ^ sw f /\ (t = 0 \/ t = 1 \/ t = 2 /\ F = 0)).
  { exists (k / 2 ^ sw f), (k mod 2 ^ sw f). pose proof (Z.mod_pos_bound k _ SP). pose proof (Z.div_mod k (2 ^ sw f)). split; [lia |].
    split; [lia |]. nia. }
  destruct K as (t & F & -> & HF & HT).
  replace (g * 2 ^ sw f + (t * 2 ^ sw f + F)) with ((g + t) * 2 ^ sw f + F) by ring.
  rewrite Z.div_add_l, Z.div_small, Z.add_0_r by lia. rewrite (Z.add_comm _ F), Z.mod_add, Z.mod_small by lia.
  destruct (Z.eqb_spec (g + t) 0) as [G | G].
  - assert (g = 0) by lia. assert (t = 0) by lia. subst g t. rewrite Z.pow_0_r. ring.
  - destruct HT as [-> | [-> | [-> ->]]].
    + exfalso. destruct HC as [-> | HC]; lia.
    + replace (g + 1 - 1) with g by ring. ring.
    + replace (g + 2 - 1) with (Z.succ g) by ring. rewrite Z.pow_succ_r by lia. ring.
Qed.

(** Every pattern is of that form. *)
Lemma pattern_at : forall f P, okf f -> 0 <= P -> exists g k, P = g * 2 ^ sw f + k /\ 0 <= g /\ 0 <= k < 2 ^ (sw f + 1) /\ (g = 0 \/ 2 ^ sw f <= k).
Proof.
  intros f P [He Hs] HP. assert (SP : 0 < 2 ^ sw f) by (apply pow2_pos; lia). rewrite Z.pow_add_r by lia. change (2 ^ 1) with 2.
  pose proof (Z.mod_pos_bound P _ SP) as M. pose proof (Z.div_mod P (2 ^ sw f)) as D.
  assert (Q : 0 <= P / 2 ^ sw f) by (apply Z.div_pos; lia).
  destruct (Z.eq_dec (P / 2 ^ sw f) 0) as [E | E].
  - exists 0, P. rewrite E in D. split; [ring |]. split; [lia |]. split; [lia | left; reflexivity].
  - exists (P / 2 ^ sw f - 1), (2 ^ sw f + P mod 2 ^ sw f). split; [nia |]. split; [lia |]. split; [lia | right; lia].
Qed.
Lemma val_succ : forall f P, okf f -> 0 <= P -> exists g k, P = g * 2 ^ sw f + k /\ 0 <= g /\ 0 <= k < 2 ^ (sw f + 1) /\ (g = 0 \/ 2 ^ sw f <= k) /\
  val f P = k * 2 ^ g /\ val f (P + 1) = (k + 1) * 2 ^ g.
Proof.
  intros f P Ok HP. destruct (pattern_at f P Ok HP) as (g & k & E & G & K & C). exists g, k. repeat (split; [assumption |]).
  rewrite E. rewrite <- Z.add_assoc. split; apply val_at; try assumption; lia.
Qed.
Lemma val_step : forall f P, okf f -> 0 <= P -> 0 <= val f P < val f (P + 1).
Proof.
  intros f P Ok HP. destruct (val_succ f P Ok HP) as (g & k & _ & G & K & _ & -> & ->). pose proof (pow2_pos g G). nia.
Qed.
Lemma val_mono : forall f P Q, okf f -> 0 <= P < Q -> val f P < val f Q.
Proof.
  intros f P Q Ok H. replace Q with (P + (Q - P)) by ring. assert (D : 0 < Q - P) by lia. revert D. generalize (Q - P). intros d D.
  assert (DP : 0 <= d) by lia. revert D. pattern d. apply natlike_ind; [lia | | exact DP].
  intros x Hx IH _. destruct (Z.eq_dec x 0) as [-> | N]; [apply val_step; lia || exact Ok |].
  specialize (IH ltac:(lia)). pose proof (val_step f (P + x) Ok ltac:(lia)). replace (P + Z.succ x) with (P + x + 1) by ring. lia.
Qed.
Lemma val_le : forall f P Q, okf f -> 0 <= P -> 0 <= Q -> val f P <= val f Q -> P <= Q.
Proof. intros f P Q Ok HP HQ H. destruct (Z.le_gt_cases P Q) as [L | L]; [exact L |]. pose proof (val_mono f Q P Ok ltac:(lia)). lia. Qed.
Lemma val_lt : forall f P Q, okf f -> 0 <= P -> 0 <= Q -> val f P < val f Q -> P < Q.
Proof.
  intros f P Q Ok HP HQ H. destruct (Z.lt_ge_cases P Q) as [L | L]; [exact L |].
  destruct (Z.eq_dec P Q) as [-> | N]; [lia |]. pose proof (val_mono f Q P Ok ltac:(lia)). lia.
Qed.
Lemma val_magnitude : forall f s P, okf f -> 0 <= P < 2 ^ (width f - 1) -> magnitude f (with_sign f s P) = val f P.
Proof.
  intros f s P Ok HP. pose proof Ok as [He Hs]. assert (SP : 0 < 2 ^ sw f) by (apply pow2_pos; lia).
  assert (WW : 2 ^ (width f - 1) = 2 ^ ew f * 2 ^ sw f) by (rewrite <- Z.pow_add_r by lia; f_equal; unfold width; lia).
  pose proof (Z.div_mod P (2 ^ sw f) ltac:(lia)) as D. pose proof (Z.mod_pos_bound P _ SP) as M.
  assert (Q : 0 <= P / 2 ^ sw f < 2 ^ ew f) by (split; [apply Z.div_pos; lia | apply Z.div_lt_upper_bound; lia]).
  destruct (fields f s _ _ Ok Q M) as (_ & E & F & _). rewrite (Z.mul_comm (P / _)), <- D in E, F.
  unfold magnitude, val. rewrite E, F. reflexivity.
Qed.
Lemma representable : forall f n j, okf f -> 0 <= n < 2 ^ (sw f + 1) -> 0 <= j -> exists Q, 0 <= Q /\ val f Q = n * 2 ^ j.
Proof.
  intros f n j Ok Hn Hj. pose proof Ok as [He Hs]. assert (SP : 0 < 2 ^ sw f) by (apply pow2_pos; lia).
  destruct (Z.eq_dec n 0) as [-> | N].
  { exists (0 * 2 ^ sw f + 0). split; [lia |]. rewrite val_at; try assumption; lia. }
  pose proof (Z.log2_spec n ltac:(lia)) as [L1 L2]. pose proof (Z.log2_nonneg n) as L0.
  assert (L3 : Z.log2 n < sw f + 1) by (apply Z.log2_lt_pow2; lia).
  set (d := Z.min j (sw f - Z.log2 n)). assert (Hd : 0 <= d <= j) by lia.
  assert (DP : 0 < 2 ^ d) by (apply pow2_pos; lia).
  assert (NB : n * 2 ^ d < 2 ^ (sw f + 1)).
  { apply Z.lt_le_trans with (2 ^ Z.succ (Z.log2 n) * 2 ^ d); [nia |]. rewrite <- Z.pow_add_r by lia. apply Z.pow_le_mono_r; lia. }
  exists ((j - d) * 2 ^ sw f + n * 2 ^ d). split; [nia |]. rewrite val_at; [| exact Ok | lia | nia |].
  - rewrite <- Z.mul_assoc, <- Z.pow_add_r by lia. f_equal. f_equal. lia.
  - destruct (Z.eq_dec (j - d) 0) as [Z0 | Z0]; [left; exact Z0 | right].
    assert (d = sw f - Z.log2 n) by lia. apply Z.le_trans with (2 ^ Z.log2 n * 2 ^ d); [| nia].
    rewrite <- Z.pow_add_r by lia. apply Z.pow_le_mono_r; lia.
Qed.

(** ** Scaling *)
Lemma round_mag_scale : forall rm s p r c, 0 < r -> 0 < c -> round_mag rm s (p * c) (r * c) = round_mag rm s p r.
Proof.
  intros rm s p r c Hr Hc. unfold round_mag. rewrite Z.div_mul_cancel_r, Z.mul_mod_distr_r by lia. set (m := p mod r).
  replace (r * c <? 2 * (m * c)) with (r <? 2 * m) by (destruct (Z.ltb_spec r (2 * m)), (Z.ltb_spec (r * c) (2 * (m * c))); nia).
  replace (r * c =? 2 * (m * c)) with (r =? 2 * m) by (destruct (Z.eqb_spec r (2 * m)), (Z.eqb_spec (r * c) (2 * (m * c))); nia).
  replace (0 <? m * c) with (0 <? m) by (destruct (Z.ltb_spec 0 m), (Z.ltb_spec 0 (m * c)); nia).
  replace (r * c <=? 2 * (m * c)) with (r <=? 2 * m) by (destruct (Z.leb_spec r (2 * m)), (Z.leb_spec (r * c) (2 * (m * c))); nia).
  reflexivity.
Qed.
Lemma exact_scale : forall p r c, 0 < r -> 0 < c -> ((p * c) mod (r * c) =? 0) = (p mod r =? 0).
Proof.
  intros p r c Hr Hc. rewrite Z.mul_mod_distr_r by lia. set (m := p mod r).
  destruct (Z.eqb_spec m 0), (Z.eqb_spec (m * c) 0); nia.
Qed.
Lemma common_factor : forall p r u K, 0 <= K -> 0 <= u + K ->
  exists c, 0 < c /\ p * 2 ^ K = p * 2 ^ Z.max 0 (- u) * c /\ r * 2 ^ (u + K) = r * 2 ^ Z.max 0 u * c.
Proof.
  intros p r u K HK HU. exists (2 ^ (K - Z.max 0 (- u))). split; [apply pow2_pos; lia |].
  rewrite <- !Z.mul_assoc, <- !Z.pow_add_r by lia. split; (f_equal; f_equal; lia).
Qed.
Lemma scaled_at : forall rm s p r u K, 0 < r -> 0 <= K -> 0 <= u + K ->
  scaled rm s p r u = (round_mag rm s (p * 2 ^ K) (r * 2 ^ (u + K)), (p * 2 ^ K) mod (r * 2 ^ (u + K)) =? 0).
Proof.
  intros rm s p r u K Hr HK HU. destruct (common_factor p r u K HK HU) as (c & C & -> & ->).
  assert (R : 0 < r * 2 ^ Z.max 0 u) by (apply Z.mul_pos_pos; [exact Hr | apply pow2_pos; lia]).
  rewrite round_mag_scale, exact_scale by assumption. reflexivity.
Qed.
Lemma floor_log2_spec : forall p r K, 0 < p -> 0 < r -> 0 <= K -> 0 <= floor_log2 p r + K ->
  r * 2 ^ (floor_log2 p r + K) <= p * 2 ^ K < r * 2 ^ (floor_log2 p r + 1 + K).
Proof.
  intros p r K Hp Hr HK. unfold floor_log2. set (e := Z.log2 p - Z.log2 r).
  pose proof (Z.log2_spec p Hp) as [P1 P2]. pose proof (Z.log2_spec r Hr) as [R1 R2].
  pose proof (Z.log2_nonneg p) as PN. pose proof (Z.log2_nonneg r) as RN.
  assert (KP : 0 < 2 ^ K) by (apply pow2_pos; exact HK).
  destruct (Z.ltb_spec (p * 2 ^ Z.max 0 (- e)) (r * 2 ^ Z.max 0 e)) as [L | L]; intros HE.
  - destruct (common_factor p r e K HK ltac:(lia)) as (c & C & EP & ER). replace (e - 1 + 1 + K) with (e + K) by ring.
    rewrite EP, ER. split; [| nia]. rewrite <- EP.
    apply Z.le_trans with (2 ^ Z.log2 p * 2 ^ K); [| nia].
    assert (Q : 0 < 2 ^ (e - 1 + K)) by (apply pow2_pos; lia).
    apply Z.le_trans with (2 ^ Z.succ (Z.log2 r) * 2 ^ (e - 1 + K)); [nia |]. rewrite <- !Z.pow_add_r by lia.
    apply Z.pow_le_mono_r; lia.
  - destruct (common_factor p r e K HK ltac:(lia)) as (c & C & EP & ER). split; [rewrite EP, ER; nia |].
    apply Z.lt_le_trans with (2 ^ Z.succ (Z.log2 p) * 2 ^ K); [nia |].
    assert (Q : 0 < 2 ^ (e + 1 + K)) by (apply pow2_pos; lia).
    apply Z.le_trans with (2 ^ Z.log2 r * 2 ^ (e + 1 + K)); [| nia]. rewrite <- !Z.pow_add_r by lia.
    apply Z.pow_le_mono_r; lia.
Qed.

(** ** Rounding *)
(** Whether the number X / r, between the consecutive lo and hi, goes to hi; [odd]: lo is odd. *)
Definition goes_up (rm : Z) (s : bool) (lo hi r X : Z) (odd : bool) : bool :=
  match rm with
  | 0 => ((lo + hi) * r <? 2 * X) || (((lo + hi) * r =? 2 * X) && odd)
  | 1 => false
  | 2 => s && (lo * r <? X)
  | 3 => negb s && (lo * r <? X)
  | _ => (lo + hi) * r <=? 2 * X end.

Lemma round_mag_up : forall rm s X r g, 0 <= X -> 0 < r -> 0 <= g -> let k := X / (r * 2 ^ g) in
  round_mag rm s X (r * 2 ^ g) = (if goes_up rm s (k * 2 ^ g) ((k + 1) * 2 ^ g) r X (Z.odd k) then k + 1 else k) /\
  (X mod (r * 2 ^ g) =? 0) = (k * 2 ^ g * r =? X).
Proof.
  intros rm s X r g HX Hr Hg k. pose proof (pow2_pos g Hg) as GP. assert (RP : 0 < r * 2 ^ g) by nia.
  pose proof (Z.div_mod X (r * 2 ^ g) ltac:(lia)) as D. fold k in D. pose proof (Z.mod_pos_bound X _ RP) as M.
  unfold round_mag. fold k. set (m := X mod (r * 2 ^ g)) in *. clearbody m k. set (t := r * 2 ^ g) in *.
  assert (E1 : k * 2 ^ g * r = k * t) by (unfold t; ring).
  assert (E2 : (k * 2 ^ g + (k + 1) * 2 ^ g) * r = 2 * (k * t) + t) by (unfold t; ring). unfold goes_up. rewrite E1, E2. clearbody t.
  split; [| destruct (Z.eqb_spec m 0), (Z.eqb_spec (k * t) X); nia].
  replace (t <? 2 * m) with (2 * (k * t) + t <? 2 * X) by (destruct (Z.ltb_spec t (2 * m)), (Z.ltb_spec (2 * (k * t) + t) (2 * X)); nia).
  replace (t =? 2 * m) with (2 * (k * t) + t =? 2 * X) by (destruct (Z.eqb_spec t (2 * m)), (Z.eqb_spec (2 * (k * t) + t) (2 * X)); nia).
  replace (0 <? m) with (k * t <? X) by (destruct (Z.ltb_spec 0 m), (Z.ltb_spec (k * t) X); nia).
  replace (t <=? 2 * m) with (2 * (k * t) + t <=? 2 * X) by (destruct (Z.leb_spec t (2 * m)), (Z.leb_spec (2 * (k * t) + t) (2 * X)); nia).
  reflexivity.
Qed.

(** The result of [round_to] from the rounded pattern. *)
Definition packed (f : fmt) (rm : Z) (s : bool) (P : Z) (exact tiny : bool) : Z * Z :=
  if top f <=? P then
    (with_sign f s (if match rm with 1 => false | 2 => s | 3 => negb s | _ => true end then top f else top f - 1), fOF + fNX)
  else (with_sign f s P, if exact then 0 else if tiny then fUF + fNX else fNX).

Lemma round_to_char : forall f rm s p r, okf f -> 0 < p -> 0 < r -> let X := p * 2 ^ quantum f in
  exists lo tiny, 0 <= lo /\ val f lo * r <= X < val f (lo + 1) * r /\
    let P := if goes_up rm s (val f lo) (val f (lo + 1)) r X (Z.odd lo) then lo + 1 else lo in
    round_to f rm s p r = packed f rm s P (val f lo * r =? X) tiny /\
    (2 ^ sw f * r <= X -> tiny = false) /\ (X < 2 ^ sw f * r -> tiny = true \/ P = 2 ^ sw f).
Proof.
  intros f rm s p r Ok Hp Hr X. pose proof Ok as [He Hs]. pose proof (quantum_pos f Ok) as HQ.
  assert (SP : 0 < 2 ^ sw f) by (apply pow2_pos; lia). assert (QP : 0 < 2 ^ quantum f) by (apply pow2_pos; lia).
  assert (HX : 0 < X) by (unfold X; nia).
  set (e := floor_log2 p r). set (u := Z.max (e - sw f) (- quantum f)). set (g := u + quantum f).
  assert (Hg : 0 <= g) by (unfold g, u; clear; lia). pose proof (pow2_pos g Hg) as GP.
  assert (RG : 0 < r * 2 ^ g) by (apply Z.mul_pos_pos; assumption).
  destruct (round_mag_up rm s X r g ltac:(lia) Hr Hg) as [RM EX]. set (k := X / (r * 2 ^ g)) in *.
  assert (S : scaled rm s p r u = (round_mag rm s X (r * 2 ^ g), X mod (r * 2 ^ g) =? 0)) by (apply scaled_at; lia).
  assert (UB : X < r * 2 ^ (sw f + 1 + g)).
  { destruct (Z.le_gt_cases 0 (e + quantum f)) as [L | L].
    - pose proof (floor_log2_spec p r (quantum f) Hp Hr ltac:(lia) L) as [_ B]. fold X in B.
      eapply Z.lt_le_trans; [exact B |]. apply Z.mul_le_mono_nonneg_l; [lia |]. apply Z.pow_le_mono_r; [lia |]. fold e. unfold g, u. lia.
    - pose proof (floor_log2_spec p r (- e) Hp Hr ltac:(lia) ltac:(unfold e; lia)) as [_ B]. fold e in B. replace (e + 1 + - e) with 1 in B by ring.
      apply Z.le_lt_trans with (p * 2 ^ (- e)); [unfold X; apply Z.mul_le_mono_nonneg_l; [lia |]; apply Z.pow_le_mono_r; lia |].
      eapply Z.lt_le_trans; [exact B |]. apply Z.mul_le_mono_nonneg_l; [lia |]. apply Z.pow_le_mono_r; lia. }
  assert (LB : g = 0 \/ r * 2 ^ (sw f + g) <= X).
  { destruct (Z.eq_dec g 0) as [G0 | G0]; [left; exact G0 | right]. assert (GE : g = e - sw f + quantum f) by (unfold g, u in *; lia).
    pose proof (floor_log2_spec p r (quantum f) Hp Hr ltac:(lia) ltac:(fold e; lia)) as [B _]. fold X in B. fold e in B.
    replace (sw f + g) with (e + quantum f) by (rewrite GE; ring). exact B. }
  assert (KR : 0 <= k < 2 ^ (sw f + 1) /\ (g = 0 \/ 2 ^ sw f <= k)).
  { split; [split |].
    - apply Z.div_pos; [clear - HX; lia | exact RG].
    - apply Z.div_lt_upper_bound; [exact RG |]. rewrite Z.pow_add_r in UB by lia. clear - UB. lia.
    - destruct LB as [G0 | LB]; [left; exact G0 | right]. apply Z.div_le_lower_bound; [exact RG |]. rewrite Z.pow_add_r in LB by lia. clear - LB. lia. }
  destruct KR as [KR KC].
  assert (V1 : val f (g * 2 ^ sw f + k) = k * 2 ^ g) by (apply val_at; try assumption; lia).
  assert (V2 : val f (g * 2 ^ sw f + k + 1) = (k + 1) * 2 ^ g) by (rewrite <- Z.add_assoc; apply val_at; try assumption; lia).
  pose proof (Z.div_mod X (r * 2 ^ g) ltac:(clear - RG; lia)) as D. fold k in D. pose proof (Z.mod_pos_bound X (r * 2 ^ g) RG) as MB.
  assert (OD : Z.odd (g * 2 ^ sw f + k) = Z.odd k).
  { rewrite Z.odd_add. replace (Z.odd (g * 2 ^ sw f)) with false; [apply xorb_false_l |].
    replace (sw f) with (Z.succ (sw f - 1)) by ring. rewrite Z.pow_succ_r, Z.mul_assoc, (Z.mul_comm g 2), <- Z.mul_assoc by lia. rewrite Z.odd_mul. reflexivity. }
  exists (g * 2 ^ sw f + k).
  exists ((e <? 1 - bias f) && negb ((e =? - bias f) && (fst (scaled rm s p r (e - sw f)) =? 2 ^ (sw f + 1)))).
  split; [clear - KR Hg SP; nia |]. rewrite V1, V2, OD. split; [clear - D MB; split; nia |]. cbv zeta. split; [| split].
  - unfold round_to. fold e. fold u. rewrite S, RM, EX. fold g. unfold packed, top.
    replace (g * 2 ^ sw f + (if goes_up rm s (k * 2 ^ g) ((k + 1) * 2 ^ g) r X (Z.odd k) then k + 1 else k))
      with (if goes_up rm s (k * 2 ^ g) ((k + 1) * 2 ^ g) r X (Z.odd k) then g * 2 ^ sw f + k + 1 else g * 2 ^ sw f + k)
      by (destruct (goes_up rm s (k * 2 ^ g) ((k + 1) * 2 ^ g) r X (Z.odd k)); ring).
    reflexivity.
  - intros B. replace (e <? 1 - bias f) with false; [reflexivity |]. symmetry. apply Z.ltb_ge.
    destruct (Z.le_gt_cases (1 - bias f) e) as [L | L]; [exact L | exfalso].
    assert (G0 : g = 0) by (unfold g, u, quantum; clear - L; lia).
    assert (EQ : e + quantum f < sw f) by (unfold quantum; clear - L; lia).
    enough (B' : X < r * 2 ^ sw f) by (clear - B' B; lia). destruct (Z.le_gt_cases 0 (e + quantum f)) as [L' | L'].
    + pose proof (floor_log2_spec p r (quantum f) Hp Hr ltac:(lia) L') as [_ B1]. fold X in B1. fold e in B1.
      eapply Z.lt_le_trans; [exact B1 |]. apply Z.mul_le_mono_nonneg_l; [clear - Hr; lia |]. apply Z.pow_le_mono_r; clear - EQ; lia.
    + pose proof (floor_log2_spec p r (- e) Hp Hr ltac:(lia) ltac:(unfold e; lia)) as [_ B']. fold e in B'. replace (e + 1 + - e) with 1 in B' by ring.
      apply Z.le_lt_trans with (p * 2 ^ (- e)); [unfold X; apply Z.mul_le_mono_nonneg_l; [lia |]; apply Z.pow_le_mono_r; lia |].
      eapply Z.lt_le_trans; [exact B' |]. apply Z.mul_le_mono_nonneg_l; [lia |]. apply Z.pow_le_mono_r; lia.
  - intros B. assert (G0 : g = 0).
    { destruct LB as [G0 | LB]; [exact G0 | exfalso]. rewrite Z.pow_add_r in LB by lia. clear - LB B GP SP Hr. nia. }
    assert (EL : e <= - bias f).
    { destruct (Z.le_gt_cases e (- bias f)) as [L | L]; [exact L | exfalso].
      pose proof (floor_log2_spec p r (quantum f) Hp Hr ltac:(lia) ltac:(fold e; unfold quantum; clear - L Hs; lia)) as [B' _]. fold X in B'. fold e in B'.
      assert (2 ^ sw f <= 2 ^ (e + quantum f)) as PM by (apply Z.pow_le_mono_r; unfold quantum; clear - L; lia). clear - PM B' B Hr. nia. }
    replace (e <? 1 - bias f) with true by (symmetry; apply Z.ltb_lt; lia). rewrite G0, Z.pow_0_r, !Z.mul_1_r, Z.mul_0_l, Z.add_0_l. rewrite G0, Z.pow_0_r, Z.mul_1_r in *.
    destruct (Z.eqb_spec e (- bias f)) as [EB | EB]; [| left; reflexivity].
    destruct (Z.eqb_spec (fst (scaled rm s p r (e - sw f))) (2 ^ (sw f + 1))) as [C | C]; [right | left; reflexivity].
    rewrite (scaled_at rm s p r (e - sw f) (quantum f + 1)) in C by (try (clear - Hr; lia); unfold quantum in *; clear - EB HQ; lia). cbn [fst] in C.
    replace (e - sw f + (quantum f + 1)) with 0 in C by (unfold quantum; clear - EB; lia).
    replace (p * 2 ^ (quantum f + 1)) with (2 * X) in C by (unfold X; rewrite Z.pow_add_r by lia; ring).
    rewrite Z.pow_0_r, !Z.mul_1_r in C.
    destruct (round_mag_up rm s (2 * X) r 0 ltac:(clear - HX; lia) Hr (Z.le_refl 0)) as [RM' _]. rewrite Z.pow_0_r, !Z.mul_1_r in RM'. rewrite RM' in C. clear RM'.
    rewrite Z.pow_add_r in C by lia. change (2 ^ 1) with 2 in C.
    set (k2 := 2 * X / r) in *. assert (K2 : k2 * r <= 2 * X < (k2 + 1) * r).
    { pose proof (Z.div_mod (2 * X) r ltac:(lia)). pose proof (Z.mod_pos_bound (2 * X) r Hr) as MM. unfold k2. clear - H MM. nia. }
    assert (K2L : k2 < 2 * 2 ^ sw f) by (clear - K2 B Hr; nia).
    destruct (goes_up rm s k2 (k2 + 1) r (2 * X) (Z.odd k2)) eqn:UP; [| exfalso; clear - C K2L; lia].
    assert (K2E : k2 = 2 * 2 ^ sw f - 1) by (clear - C K2L; lia). assert (KE : k = 2 ^ sw f - 1).
    { assert (A1 : k * r <= X < (k + 1) * r) by (clear - D MB; nia). assert (A2 : (2 ^ sw f - 1) * r < X) by (clear - K2 K2E Hr; nia).
      clear - A1 A2 B Hr. assert (k < 2 ^ sw f) by nia. assert (2 ^ sw f - 1 < k + 1) by nia. lia. }
    replace (goes_up rm s k (k + 1) r X (Z.odd k)) with true; [clear - KE; lia |]. symmetry. clearbody k k2. unfold goes_up in *.
    assert (XK : k * r < X) by (clear - K2 K2E KE Hr; nia).
    destruct rm as [| rm |]; [| destruct rm as [[|[]|]|[[]|[]|]|] |]; try exact UP;
      try (apply andb_true_iff in UP; destruct UP as [UP _]; rewrite UP; apply Z.ltb_lt; exact XK);
      try (apply Z.leb_le in UP; apply Z.leb_le; clear - UP K2E KE SP Hr K2; nia).
    apply orb_true_iff. left. apply Z.ltb_lt. apply orb_true_iff in UP. rewrite andb_true_iff, Z.ltb_lt, Z.eqb_eq in UP. clear - UP K2E KE SP Hr K2. nia.
Qed.
