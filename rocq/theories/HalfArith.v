(** Half-precision arithmetic done in single precision and narrowed. *)
From Coq Require Import ZArith Bool List Lia.
From Verif Require Import Bits IeeeSpec FpSpec IntModel FpModel FpProofs FpCvt FpWiden FpHalf FarithSpec FarithModel FarithProofs FarithExec
  RoundProofs RoundTwice HalfModel HalfProofs HalfConv.
Import ListNotations.
Local Open Scope Z_scope.

(** ** Scaling *)
Lemma floor_log2_scale : forall p r k, 0 < p -> 0 < r -> 0 <= k -> floor_log2 (p * 2 ^ k) (r * 2 ^ k) = floor_log2 p r.
Proof.
  intros p r k Hp Hr Hk. unfold floor_log2. rewrite !Z.log2_mul_pow2 by assumption. replace (k + Z.log2 p - (k + Z.log2 r)) with (Z.log2 p - Z.log2 r) by ring.
  set (e := Z.log2 p - Z.log2 r). set (u := 2 ^ Z.max 0 (- e)). set (v := 2 ^ Z.max 0 e). pose proof (pow2_pos k Hk) as KP. clearbody u v.
  replace (p * 2 ^ k * u <? r * 2 ^ k * v) with (p * u <? r * v); [reflexivity |].
  destruct (Z.ltb_spec (p * u) (r * v)), (Z.ltb_spec (p * 2 ^ k * u) (r * 2 ^ k * v)); try reflexivity; nia.
Qed.
Lemma round_to_scale : forall f rm s p r k, 0 < p -> 0 < r -> 0 <= k -> round_to f rm s (p * 2 ^ k) (r * 2 ^ k) = round_to f rm s p r.
Proof.
  intros f rm s p r k Hp Hr Hk. unfold round_to. rewrite floor_log2_scale by assumption. pose proof (pow2_pos k Hk) as KP.
  assert (S : forall u, scaled rm s (p * 2 ^ k) (r * 2 ^ k) u = scaled rm s p r u).
  { intros u. unfold scaled. set (x := 2 ^ Z.max 0 (- u)). set (y := 2 ^ Z.max 0 u).
    assert (XP : 0 < y) by (apply pow2_pos; apply Z.le_max_l).
    replace (p * 2 ^ k * x) with (p * x * 2 ^ k) by ring. replace (r * 2 ^ k * y) with (r * y * 2 ^ k) by ring.
    rewrite round_mag_scale, exact_scale by nia. reflexivity. }
  rewrite !S. reflexivity.
Qed.

(** The error of a rounding to a normal number is less than one unit in the last place. *)
Lemma rounded_near : forall f rm s p r, okf f -> 0 < p -> 0 < r -> let X := p * 2 ^ quantum f in
  2 ^ sw f * r <= X -> X < val f (top f - 1) * r -> let Y := magnitude f (fst (round_to f rm s p r)) in
  exists g, 0 <= g /\ 2 ^ (sw f + g) * r <= X /\ Z.abs (Y * r - X) < 2 ^ g * r /\ (rm = 0 -> 2 * Z.abs (Y * r - X) <= 2 ^ g * r).
Proof.
  intros f rm s p r Ok Hp Hr X LB UB Y. pose proof Ok as [He Hs].
  destruct (round_to_char f rm s p r Ok Hp Hr) as (lf & tf & HLF & BF & EF & _). fold X in BF, EF. cbv zeta in EF.
  destruct (top_range f Ok) as (T1 & T2 & T3). pose proof (pow2_pos (sw f) ltac:(lia)) as SP.
  assert (LT : lf < top f - 1).
  { assert (A : val f lf < val f (top f - 1)) by (clear - BF UB Hr; nia). apply val_lt in A; [exact A | exact Ok | exact HLF | lia]. }
  destruct (val_succ f lf Ok HLF) as (g & k & E1 & G0 & K & C & V1 & V2).
  assert (GP : 0 < 2 ^ g) by (apply pow2_pos; exact G0).
  exists g. split; [exact G0 |]. rewrite V1, V2 in BF. rewrite V1, V2 in EF. split.
  { rewrite Z.pow_add_r by lia. destruct C as [-> | C]; [rewrite Z.pow_0_r; lia |]. clear - BF C GP Hr. nia. }
  assert (YE : Y = if goes_up rm s (k * 2 ^ g) ((k + 1) * 2 ^ g) r X (Z.odd lf) then (k + 1) * 2 ^ g else k * 2 ^ g).
  { unfold Y. rewrite EF. unfold packed. set (u := goes_up _ _ _ _ _ _ _).
    destruct (Z.leb_spec (top f) (if u then lf + 1 else lf)) as [L | L]; [exfalso; destruct u; lia |]. cbn [fst].
    rewrite val_magnitude by (try exact Ok; destruct u; lia). destruct u; [rewrite V2 | rewrite V1]; reflexivity. }
  assert (E2 : (k + 1) * 2 ^ g * r = k * 2 ^ g * r + 2 ^ g * r) by ring.
  assert (E3 : (k * 2 ^ g + (k + 1) * 2 ^ g) * r = 2 * (k * 2 ^ g * r) + 2 ^ g * r) by ring.
  assert (RP : 0 < 2 ^ g * r) by (apply Z.mul_pos_pos; assumption).
  rewrite YE. destruct (goes_up rm s (k * 2 ^ g) ((k + 1) * 2 ^ g) r X (Z.odd lf)) eqn:U.
  - assert (KL : k * 2 ^ g < (k + 1) * 2 ^ g) by (clear - GP; nia). pose proof (up_inexact _ _ _ _ _ _ _ Hr KL U) as UI. rewrite E2 in BF |- *. split; [clear - UI BF; lia |].
    intros ->. unfold goes_up in U. rewrite E3 in U. apply orb_true_iff in U. rewrite andb_true_iff, Z.ltb_lt, Z.eqb_eq in U. clear - U BF UI. lia.
  - rewrite E2 in BF. split; [clear - BF RP; lia |]. intros ->. unfold goes_up in U. rewrite E3 in U. apply orb_false_iff in U. destruct U as [U _]. apply Z.ltb_ge in U. clear - U BF. lia.
Qed.

(** ** Operands *)
Definition DQ : Z := 2 ^ 125.
Lemma widen_nan : forall a, 0 <= a < 65536 -> is_nan half a = true ->
  is_nan single (fst (from_half single a)) = true /\ is_snan single (fst (from_half single a)) = false /\ 0 <= fst (from_half single a) < 2 ^ 32 /\
  snd (from_half single a) = (if is_snan half a then fNV else 0).
Proof.
  intros a Ha N. destruct (widen_correct single a (or_introl eq_refl) Ha) as (W1 & W2 & W3). rewrite N in W3. rewrite W1, W3.
  repeat split; try (vm_compute; congruence).
Qed.
Lemma widen_num : forall a, 0 <= a < 65536 -> is_nan half a = false -> let x := fst (from_half single a) in
  is_nan single x = false /\ 0 <= x < 2 ^ 32 /\ snd (from_half single a) = 0 /\ sign single x = sign half a /\ is_inf single x = is_inf half a /\
  (is_inf half a = false -> magnitude single x = magnitude half a * DQ /\ units single x = units half a * DQ) /\ is_zero single x = is_zero half a.
Proof.
  intros a Ha N x. destruct (widen_correct single a (or_introl eq_refl) Ha) as (W1 & W2 & W3). rewrite N in W3. destruct W3 as (W3 & W4 & W5 & W6). fold x in W2, W3, W4, W5, W6.
  assert (SN : is_snan half a = false) by (unfold is_snan; rewrite N; reflexivity).
  split; [exact W5 |]. split; [exact W2 |]. split; [rewrite W1, SN; reflexivity |]. split; [exact W3 |]. split; [exact W4 |].
  assert (OS : okf single) by (split; cbn; lia).
  assert (U : is_inf half a = false -> magnitude single x = magnitude half a * DQ /\ units single x = units half a * DQ).
  { intros I. specialize (W6 I). change (2 ^ (quantum single - quantum half)) with DQ in W6. split; [| exact W6].
    unfold units in W6. rewrite W3 in W6. clear - W6. destruct (sign half a); lia. }
  split; [exact U |]. destruct (is_inf half a) eqn:I.
  - transitivity false; [| symmetry].
    + destruct (is_zero single x) eqn:Z0; [| reflexivity]. rewrite (zero_not_inf single x OS Z0) in W4. discriminate W4.
    + destruct (is_zero half a) eqn:Z0; [| reflexivity]. rewrite (zero_not_inf half a ok_half Z0) in I. discriminate I.
  - destruct (U eq_refl) as [_ U2]. rewrite <- !units_zero by (try exact OS; exact ok_half). rewrite U2. assert (DP : 0 < DQ) by reflexivity. clear - DP.
    generalize DQ, DP. intros d Hd. destruct (Z.eqb_spec (units half a * d) 0), (Z.eqb_spec (units half a) 0); try reflexivity; nia.
Qed.

(** Finite half numbers. *)
Lemma half_parts : forall a, 0 <= a < 65536 -> is_nan half a = false -> is_inf half a = false ->
  exists A al, 0 <= A < 2048 /\ 0 <= al <= 29 /\ magnitude half a = A * 2 ^ al.
Proof.
  intros a Ha N I. pose proof (special_of half a N I) as S. unfold special in S. apply Z.eqb_neq in S. change (2 ^ ew half - 1) with 31 in S.
  assert (ER : 0 <= expo half a < 32) by (unfold expo; cbn [ew sw half]; apply Z.mod_pos_bound; lia).
  assert (FR : 0 <= frac half a < 1024) by (unfold frac; cbn [ew sw half]; apply (Z.mod_pos_bound a (2 ^ 10)); lia).
  unfold magnitude. change (2 ^ sw half) with 1024. destruct (Z.eqb_spec (expo half a) 0).
  - exists (frac half a), 0. rewrite Z.pow_0_r. lia.
  - exists (1024 + frac half a), (expo half a - 1). lia.
Qed.
Lemma half_bound : forall a, 0 <= a < 65536 -> is_nan half a = false -> is_inf half a = false -> 0 <= magnitude half a < 2 ^ 40.
Proof.
  intros a Ha N I. destruct (half_parts a Ha N I) as (A & al & HA & HL & ->). assert (P : 0 < 2 ^ al <= 2 ^ 29) by (split; [apply pow2_pos; lia | apply Z.pow_le_mono_r; lia]).
  change (2 ^ 29) with 536870912 in P. change (2 ^ 40) with 1099511627776. nia.
Qed.

(** ** A rounded quotient, narrowed *)
Definition safe (rm p r : Z) : Prop :=
  let X := p * 2 ^ 149 in 2 ^ 23 * r <= X /\ X < val single (top single - 1) * r /\
  forall s, let Y := magnitude single (fst (round_to single rm s p r)) in
    (rm = 0 -> forall P, 0 <= P -> 2 * Y = (val half P + val half (P + 1)) * DQ -> Y * r = X) /\
    (X < 1024 * DQ * r -> forall P, 0 <= P -> Y = val half P * DQ -> Y * r = X).

Lemma rat_twice : forall H rm n d zs k, host_ok H -> 0 <= rm <= 3 -> 0 < d -> 0 <= k -> (n <> 0 -> safe rm (Z.abs n) d) ->
  let sp := round_rat single rm (n * 2 ^ k) (d * 2 ^ k) zs in
  number single (fst sp) /\ exists s, nearly half s (fst (to_half H single rm (fst sp)), Z.lor (snd sp) (snd (to_half H single rm (fst sp)))) (round_rat half rm n d zs).
Proof.
  intros H rm n d zs k HO Hrm Hd Hk SAFE sp. pose proof (pow2_pos k Hk) as KP. assert (OS : okf single) by (split; cbn; lia).
  assert (DK : 0 < d * 2 ^ k) by nia. split; [apply number_rat; assumption |].
  unfold sp, round_rat. destruct (Z.eqb_spec n 0) as [-> | N0].
  { replace (0 * 2 ^ k =? 0) with true by reflexivity. cbn [fst snd]. exists zs. rewrite to_half_special; [| left; reflexivity | | right; right; destruct zs; reflexivity].
    - split; [| left]; destruct zs; reflexivity.
    - destruct zs; split; vm_compute; congruence. }
  replace (n * 2 ^ k =? 0) with false by (symmetry; apply Z.eqb_neq; clear - N0 KP; nia).
  replace (n * 2 ^ k <? 0) with (n <? 0) by (clear - KP; destruct (Z.ltb_spec n 0), (Z.ltb_spec (n * 2 ^ k) 0); try reflexivity; nia).
  replace (Z.abs (n * 2 ^ k)) with (Z.abs n * 2 ^ k) by (rewrite Z.abs_mul; f_equal; clear - KP; lia).
  rewrite round_to_scale by (try assumption; clear - N0; lia).
  destruct (SAFE N0) as (LB & UB & CND). destruct (CND (n <? 0)) as [MID H2]. clear CND. set (s := n <? 0) in *. set (p := Z.abs n) in *.
  assert (PP : 0 < p) by (unfold p; clear - N0; lia). clearbody s p.
  destruct (twice_nearly single half OS ok_half ltac:(cbn; lia) ltac:(cbn; lia) rm s p d Hrm PP Hd LB UB MID) as (SG & NN & NI & YP & CONCL).
  set (z := fst (round_to single rm s p d)) in *.
  assert (ZR : 0 <= z < 2 ^ width single) by (apply (number_round single rm s p d OS); [clear - PP; lia | exact Hd]).
  assert (ZZ : is_zero single z = false).
  { destruct (is_zero single z) eqn:E; [| reflexivity]. destruct (magnitude_zero single z E) as [M0 _]. rewrite M0 in YP. clear - YP. lia. }
  pose proof (to_half_number H single rm z HO (or_introl eq_refl) Hrm ZR (special_of single z NN NI) ZZ) as TH. rewrite SG in TH.
  exists s. apply (CONCL _ TH). exact H2.
Qed.
(** In the directed modes the value is always right. *)
Lemma rat_value : forall H rm n d zs k, host_ok H -> 1 <= rm <= 3 -> 0 < d -> 0 <= k ->
  (n <> 0 -> 2 ^ 23 * d <= Z.abs n * 2 ^ 149 /\ Z.abs n * 2 ^ 149 < val single (top single - 1) * d) ->
  let sp := round_rat single rm (n * 2 ^ k) (d * 2 ^ k) zs in
  number single (fst sp) /\ fst (to_half H single rm (fst sp)) = fst (round_rat half rm n d zs).
Proof.
  intros H rm n d zs k HO Hrm Hd Hk SAFE sp. pose proof (pow2_pos k Hk) as KP. assert (OS : okf single) by (split; cbn; lia).
  assert (DK : 0 < d * 2 ^ k) by nia. split; [apply number_rat; assumption |].
  unfold sp, round_rat. destruct (Z.eqb_spec n 0) as [-> | N0].
  { replace (0 * 2 ^ k =? 0) with true by reflexivity. cbn [fst snd]. rewrite to_half_special; [| left; reflexivity | | right; right; destruct zs; reflexivity].
    - destruct zs; reflexivity.
    - destruct zs; split; vm_compute; congruence. }
  replace (n * 2 ^ k =? 0) with false by (symmetry; apply Z.eqb_neq; clear - N0 KP; nia).
  replace (n * 2 ^ k <? 0) with (n <? 0) by (clear - KP; destruct (Z.ltb_spec n 0), (Z.ltb_spec (n * 2 ^ k) 0); try reflexivity; nia).
  replace (Z.abs (n * 2 ^ k)) with (Z.abs n * 2 ^ k) by (rewrite Z.abs_mul; f_equal; clear - KP; lia).
  rewrite round_to_scale by (try assumption; clear - N0; lia).
  destruct (SAFE N0) as (LB & UB). set (s := n <? 0) in *. set (p := Z.abs n) in *.
  assert (PP : 0 < p) by (unfold p; clear - N0; lia). clearbody s p.
  destruct (twice_nearly single half OS ok_half ltac:(cbn; lia) ltac:(cbn; lia) rm s p d ltac:(clear - Hrm; lia) PP Hd LB UB ltac:(intros R0; exfalso; clear - R0 Hrm; lia)) as (SG & NN & NI & YP & CONCL).
  set (z := fst (round_to single rm s p d)) in *.
  assert (ZR : 0 <= z < 2 ^ width single) by (apply (number_round single rm s p d OS); [clear - PP; lia | exact Hd]).
  assert (ZZ : is_zero single z = false).
  { destruct (is_zero single z) eqn:E; [| reflexivity]. destruct (magnitude_zero single z E) as [M0 _]. rewrite M0 in YP. clear - YP. lia. }
  pose proof (to_half_number H single rm z HO (or_introl eq_refl) ltac:(clear - Hrm; lia) ZR (special_of single z NN NI) ZZ) as TH. rewrite SG in TH.
  exact (proj1 (CONCL _ TH)).
Qed.

(** ** When the two roundings are one *)
Lemma huge : 2 ^ 276 <= val single (top single - 1).
Proof. apply Z.leb_le. vm_compute. reflexivity. Qed.
Lemma ok_single : okf single.
Proof. split; cbn; lia. Qed.

(** A number of at most 24 bits. *)
Lemma exact_round : forall rm s p r n j, 0 < p -> 0 < r -> 0 <= n < 2 ^ 24 -> 0 <= j -> p * 2 ^ 149 = n * 2 ^ j * r -> p * 2 ^ 149 < val single (top single - 1) * r ->
  magnitude single (fst (round_to single rm s p r)) * r = p * 2 ^ 149.
Proof.
  intros rm s p r n j Hp Hr Hn Hj E UB. destruct (representable single n j ok_single Hn Hj) as (Q & HQ & VQ). rewrite <- VQ in E.
  destruct (top_range single ok_single) as (T1 & T2 & T3).
  assert (QT : Q < top single - 1).
  { assert (A : val single Q < val single (top single - 1)) by (clear - E UB Hr; nia). apply val_lt in A; [exact A | exact ok_single | exact HQ | clear - T1; lia]. }
  rewrite (round_to_rep single rm s p r Q ok_single Hp Hr ltac:(clear - HQ QT; lia) E). cbn [fst]. rewrite val_magnitude; [symmetry; exact E | exact ok_single | clear - HQ QT T2; lia].
Qed.
Lemma safe_exact : forall rm p r n j, 0 < p -> 0 < r -> 2 ^ 23 * r <= p * 2 ^ 149 -> p * 2 ^ 149 < val single (top single - 1) * r ->
  0 <= n < 2 ^ 24 -> 0 <= j -> p * 2 ^ 149 = n * 2 ^ j * r -> safe rm p r.
Proof.
  intros rm p r n j Hp Hr LB UB Hn Hj E. split; [exact LB |]. split; [exact UB |]. intros s Y.
  pose proof (exact_round rm s p r n j Hp Hr Hn Hj E UB) as X. split; intros; exact X.
Qed.

(** Midpoints and numbers of the half format, as single quanta. *)
Lemma mid_form : forall P Y, 0 <= P -> 2 * Y = (val half P + val half (P + 1)) * DQ ->
  exists k g, 0 <= g /\ 0 <= k < 2048 /\ (g = 0 \/ 1024 <= k) /\ Y = (2 * k + 1) * 2 ^ (g + 124).
Proof.
  intros P Y HP E. destruct (val_succ half P ok_half HP) as (g & k & _ & G & K & C & V1 & V2). change (2 ^ (sw half + 1)) with 2048 in K. change (2 ^ sw half) with 1024 in C.
  exists k, g. split; [exact G |]. split; [exact K |]. split; [exact C |]. rewrite V1, V2 in E. unfold DQ in E. rewrite Z.pow_add_r by lia.
  change (2 ^ 125) with (2 * 2 ^ 124) in E. set (d := 2 ^ 124) in *. set (u := 2 ^ g) in *. clearbody d u. clear - E. nia.
Qed.
Lemma grid_form : forall P Y, 0 <= P -> Y = val half P * DQ -> exists k g, 0 <= g /\ 0 <= k < 2048 /\ Y = k * 2 ^ (g + 125).
Proof.
  intros P Y HP ->. destruct (val_succ half P ok_half HP) as (g & k & _ & G & K & _ & V1 & _). change (2 ^ (sw half + 1)) with 2048 in K.
  exists k, g. split; [exact G |]. split; [exact K |]. rewrite V1, Z.pow_add_r by lia. unfold DQ. ring.
Qed.

(** *** Products *)
Lemma safe_mul : forall rm a b, 0 <= a < 65536 -> 0 <= b < 65536 -> is_nan half a = false -> is_inf half a = false -> is_nan half b = false -> is_inf half b = false ->
  0 < magnitude half a * magnitude half b -> safe rm (magnitude half a * magnitude half b) (2 ^ 48).
Proof.
  intros rm a b Ha Hb NA IA NB IB PP. destruct (half_parts a Ha NA IA) as (A & al & HA & HL & EA). destruct (half_parts b Hb NB IB) as (B & be & HB & HM & EB).
  pose proof (half_bound a Ha NA IA) as BA. pose proof (half_bound b Hb NB IB) as BB. set (p := magnitude half a * magnitude half b) in *.
  assert (PB : p < 2 ^ 80) by (unfold p; clear - BA BB; change (2 ^ 80) with (2 ^ 40 * 2 ^ 40); nia).
  pose proof huge as HG. apply (safe_exact rm p (2 ^ 48) (A * B) (al + be + 101)); try assumption; try (clear; lia).
  - apply Z.le_trans with (1 * 2 ^ 149); [vm_compute; congruence | apply Z.mul_le_mono_nonneg_r; [clear; lia | clear - PP; lia]].
  - apply Z.lt_le_trans with (2 ^ 276 * 2 ^ 48); [| apply Z.mul_le_mono_nonneg_r; [clear; lia | exact HG]].
    apply Z.lt_trans with (2 ^ 80 * 2 ^ 149); [apply Z.mul_lt_mono_pos_r; [reflexivity | exact PB] | reflexivity].
  - clear - HA HB. change (2 ^ 24) with 16777216. nia.
  - clear - HL HM. lia.
  - unfold p. rewrite EA, EB. replace (al + be + 101) with (al + (be + 101)) by ring. rewrite !Z.pow_add_r by (clear - HL HM; lia).
    change (2 ^ 149) with (2 ^ 101 * 2 ^ 48). ring.
Qed.

(** *** Quotients *)
Lemma div_core : forall A B M e1 e2 J g X r Y, 0 <= A < 2048 -> 0 < B < 2048 -> 0 <= M < 4096 -> 0 <= e1 -> 0 <= e2 -> 0 <= J -> 0 <= g ->
  X = A * 2 ^ e1 -> r = B * 2 ^ e2 -> Y = M * 2 ^ J -> 2 ^ (23 + g) * r <= X -> Z.abs (Y * r - X) < 2 ^ g * r -> Y * r = X.
Proof.
  intros A B M e1 e2 J g X r Y HA HB HM H1 H2 HJ HG EX Er EY LB NEAR. pose proof (pow2_pos e1 H1) as P1. pose proof (pow2_pos e2 H2) as P2. pose proof (pow2_pos g HG) as PG.
  pose proof (pow2_pos J HJ) as PJ. assert (RP : 0 < r) by (rewrite Er; clear - HB P2; nia). rewrite Z.pow_add_r in LB by lia. change (2 ^ 23) with 8388608 in LB.
  assert (GR : 0 < 2 ^ g * r) by (apply Z.mul_pos_pos; assumption).
  destruct (Z.eq_dec (Y * r) X) as [E | NE]; [exact E | exfalso].
  destruct (Z.le_gt_cases (J + e2) e1) as [L | L].
  - (* the difference is a multiple of 2^(J + e2) *)
    assert (JG : J <= g + 10).
    { destruct (Z.le_gt_cases J (g + 10)) as [|G]; [assumption | exfalso].
      assert (PP : 2048 * 2 ^ g <= 2 ^ J) by (change 2048 with (2 ^ 11); rewrite <- Z.pow_add_r by lia; apply Z.pow_le_mono_r; lia).
      assert (D : exists m, Y * r - X = m * (2 ^ J * 2 ^ e2)).
      { exists (M * B - A * 2 ^ (e1 - (J + e2))). rewrite EY, Er, EX. replace (2 ^ e1) with (2 ^ (e1 - (J + e2)) * (2 ^ J * 2 ^ e2)) by (rewrite <- !Z.pow_add_r by lia; f_equal; ring). ring. }
      destruct D as (m & D). assert (M0 : m <> 0) by (intros ->; lia). rewrite D in NEAR. rewrite Er in NEAR.
      assert (2 ^ J * 2 ^ e2 <= Z.abs (m * (2 ^ J * 2 ^ e2))) by (clear - M0 PJ P2; rewrite Z.abs_mul; assert (0 < 2 ^ J * 2 ^ e2) by nia; rewrite (Z.abs_eq (2 ^ J * 2 ^ e2)) by lia; nia).
      assert (2 ^ g * (B * 2 ^ e2) < 2048 * 2 ^ g * 2 ^ e2) by (clear - HB PG P2; assert (0 < 2 ^ g * 2 ^ e2) by nia; nia). clear - NEAR H H0 PP P2. nia. }
    assert (YB : (8388608 - 1) * 2 ^ g < Y).
    { clear - LB NEAR RP. assert (8388608 * 2 ^ g * r - Y * r < 2 ^ g * r) by lia. nia. }
    assert (PJ2 : 2 ^ J <= 1024 * 2 ^ g) by (change 1024 with (2 ^ 10); rewrite <- Z.pow_add_r by lia; apply Z.pow_le_mono_r; lia).
    clear - YB PJ2 EY HM PG PJ. nia.
  - assert (D : exists m, Y * r - X = m * 2 ^ e1).
    { exists (M * B * 2 ^ (J + e2 - e1) - A). rewrite EY, Er, EX.
      assert (Q : 2 ^ J * 2 ^ e2 = 2 ^ (J + e2 - e1) * 2 ^ e1) by (rewrite <- !Z.pow_add_r by lia; f_equal; ring).
      replace (M * 2 ^ J * (B * 2 ^ e2)) with (M * B * (2 ^ J * 2 ^ e2)) by ring. rewrite Q. ring. }
    destruct D as (m & D). assert (M0 : m <> 0) by (intros ->; lia). rewrite D in NEAR.
    assert (2 ^ e1 <= Z.abs (m * 2 ^ e1)) by (clear - M0 P1; rewrite Z.abs_mul, (Z.abs_eq (2 ^ e1)) by lia; nia).
    rewrite EX in LB. clear - NEAR H LB HA P1 GR. nia.
Qed.
Lemma safe_div : forall rm a b, 0 <= a < 65536 -> 0 <= b < 65536 -> is_nan half a = false -> is_inf half a = false -> is_nan half b = false -> is_inf half b = false ->
  0 < magnitude half a -> 0 < magnitude half b -> safe rm (magnitude half a) (magnitude half b).
Proof.
  intros rm a b Ha Hb NA IA NB IB PA PB. destruct (half_parts a Ha NA IA) as (A & al & HA & HL & EA). destruct (half_parts b Hb NB IB) as (B & be & HB & HM & EB).
  pose proof (half_bound a Ha NA IA) as BA. pose proof (half_bound b Hb NB IB) as BB. set (p := magnitude half a) in *. set (r := magnitude half b) in *. clearbody p r.
  pose proof huge as HG.
  assert (LB : 2 ^ 23 * r <= p * 2 ^ 149).
  { apply Z.le_trans with (2 ^ 23 * 2 ^ 40); [apply Z.mul_le_mono_nonneg_l; [clear; lia | clear - BB; lia] |].
    apply Z.le_trans with (1 * 2 ^ 149); [vm_compute; congruence | apply Z.mul_le_mono_nonneg_r; [clear; lia | clear - PA; lia]]. }
  assert (UB : p * 2 ^ 149 < val single (top single - 1) * r).
  { apply Z.lt_le_trans with (2 ^ 276 * 1); [| apply Z.mul_le_mono_nonneg; [clear; lia | exact HG | clear; lia | clear - PB; lia]].
    apply Z.lt_trans with (2 ^ 40 * 2 ^ 149); [apply Z.mul_lt_mono_pos_r; [reflexivity | clear - BA; lia] | reflexivity]. }
  split; [exact LB |]. split; [exact UB |]. intros s Y.
  destruct (rounded_near single rm s p r ok_single PA PB LB UB) as (g & G0 & G1 & G2 & _). fold Y in G2. change (sw single) with 23 in G1. change (quantum single) with 149 in G1, G2.
  assert (B0 : B <> 0) by (intros ->; clear - EB PB; lia).
  assert (EX : p * 2 ^ 149 = A * 2 ^ (al + 149)) by (rewrite EA, Z.pow_add_r by (clear - HL; lia); ring).
  split.
  - intros _ P HP E. destruct (mid_form P Y HP E) as (k & j & J0 & K & _ & EY).
    apply (div_core A B (2 * k + 1) (al + 149) be (j + 124) g); try assumption; clear - HA HB HL HM K J0 B0; lia.
  - intros _ P HP E. destruct (grid_form P Y HP E) as (k & j & J0 & K & EY).
    apply (div_core A B k (al + 149) be (j + 125) g); try assumption; clear - HA HB HL HM K J0 B0; lia.
Qed.

(** *** Sums *)
Lemma add_core_le : forall u v A B al be Y K J g, Z.abs u = A * 2 ^ al -> Z.abs v = B * 2 ^ be -> 0 <= A < 2048 -> 0 <= B < 2048 -> 0 <= al -> 0 <= be ->
  2048 <= K < 4096 -> Z.odd K = true -> 0 <= J -> 0 <= g -> Y = K * 2 ^ J -> 2 ^ (23 + g) <= Z.abs (u + v) -> Z.abs (Y - Z.abs (u + v)) < 2 ^ g ->
  Z.abs v <= Z.abs u -> Y = Z.abs (u + v).
Proof.
  intros u v A B al be Y K J g EU EV HA HB HL HM HK OK HJ HG EY LB NEAR UV.
  pose proof (pow2_pos g HG) as PG. pose proof (pow2_pos J HJ) as PJ. pose proof (pow2_pos al HL) as PA. pose proof (pow2_pos be HM) as PB.
  rewrite Z.pow_add_r in LB by lia. change (2 ^ 23) with 8388608 in LB. set (G := 2 ^ g) in *.
  assert (JG : g + 12 <= J).
  { destruct (Z.le_gt_cases (g + 12) J) as [|L]; [assumption | exfalso].
    assert (PP : 2 ^ J <= 2048 * G) by (unfold G; change 2048 with (2 ^ 11); rewrite <- Z.pow_add_r by lia; apply Z.pow_le_mono_r; lia).
    assert (YB : 8388608 * G - G < Y) by (clear - LB NEAR; lia). clear - YB PP EY HK PG PJ. nia. }
  assert (AG : g + 12 <= al).
  { destruct (Z.le_gt_cases (g + 12) al) as [|L]; [assumption | exfalso].
    assert (PP : 2 ^ al <= 2048 * G) by (unfold G; change 2048 with (2 ^ 11); rewrite <- Z.pow_add_r by lia; apply Z.pow_le_mono_r; lia).
    assert (8388608 * G <= 2 * (A * 2 ^ al)) by (clear - LB UV EU; lia). clear - H PP HA PG PA. nia. }
  set (sg := if u + v <? 0 then -1 else 1).
  assert (SG : (sg = 1 \/ sg = -1) /\ Z.abs (u + v) = sg * (u + v)) by (unfold sg; destruct (Z.ltb_spec (u + v) 0); lia). destruct SG as [SG1 SG2]. clearbody sg.
  assert (NEAR' : Z.abs (u + v - sg * Y) < G) by (rewrite SG2 in NEAR; clear - SG1 NEAR; destruct SG1 as [-> | ->]; lia).
  assert (DU : exists m, u - sg * Y = m * (4096 * G)).
  { assert (U1 : 2 ^ al = 2 ^ (al - (g + 12)) * (4096 * G)) by (unfold G; change 4096 with (2 ^ 12); rewrite <- !Z.pow_add_r by lia; f_equal; ring).
    assert (Y1 : 2 ^ J = 2 ^ (J - (g + 12)) * (4096 * G)) by (unfold G; change 4096 with (2 ^ 12); rewrite <- !Z.pow_add_r by lia; f_equal; ring).
    rewrite U1 in EU. rewrite Y1 in EY. set (x := 2 ^ (al - (g + 12))) in *. set (y := 2 ^ (J - (g + 12))) in *. clearbody x y.
    destruct (Z.abs_eq_or_opp u) as [Q | Q]; [exists (A * x - sg * K * y) | exists (- (A * x) - sg * K * y)]; rewrite EY; rewrite Q in EU; clear - EU; lia || nia. }
  destruct DU as (m & DU). set (W := 4096 * G) in *.
  destruct (Z.le_gt_cases g be) as [L | L].
  - assert (V1 : 2 ^ be = 2 ^ (be - g) * G) by (unfold G; rewrite <- Z.pow_add_r by lia; f_equal; ring). rewrite V1 in EV. set (x := 2 ^ (be - g)) in *. clearbody x.
    assert (DV : exists m', v = m' * G).
    { destruct (Z.abs_eq_or_opp v) as [Q | Q]; rewrite Q in EV; [exists (B * x) | exists (- (B * x))]; clear - EV; lia. }
    destruct DV as (m' & DV). assert (Q : u + v - sg * Y = (4096 * m + m') * G) by (rewrite DV; unfold W in DU; clear - DU; lia).
    rewrite Q in NEAR'. assert (Q0 : 4096 * m + m' = 0) by (clear - NEAR' PG; rewrite Z.abs_mul, (Z.abs_eq G) in NEAR' by lia; nia).
    rewrite Q0 in Q. rewrite SG2. clear - Q SG1. destruct SG1 as [-> | ->]; lia.
  - exfalso. assert (VB : Z.abs v < 2048 * G).
    { rewrite EV. assert (2 ^ be <= G) by (unfold G; apply Z.pow_le_mono_r; lia). clear - HB H PB. nia. }
    assert (M0 : m = 0).
    { assert (Z.abs (m * W) < W) by (rewrite <- DU; unfold W; clear - VB NEAR' PG; lia). assert (0 < W) by (unfold W; clear - PG; lia). clear - H H0. rewrite Z.abs_mul, (Z.abs_eq W) in H by lia. nia. }
    rewrite M0 in DU. assert (UY : Z.abs u = Y).
    { assert (YP : 0 <= Y) by (rewrite EY; clear - HK PJ; nia). clear - DU SG1 YP. destruct SG1 as [-> | ->]; lia. }
    rewrite EU, EY in UY. destruct (Z.le_gt_cases al J) as [L2 | L2].
    + assert (Q : 2 ^ J = 2 ^ (J - al) * 2 ^ al) by (rewrite <- Z.pow_add_r by lia; f_equal; ring). pose proof (pow2_pos (J - al) ltac:(lia)). rewrite Q in UY.
      assert (Q2 : A = K * 2 ^ (J - al)) by (rewrite Z.mul_assoc in UY; apply Z.mul_cancel_r in UY; [exact UY | clear - PA; lia]). clear - Q2 HA HK H. nia.
    + assert (Q : 2 ^ al = 2 ^ (al - J - 1) * 2 * 2 ^ J).
      { change 2 with (2 ^ 1) at 3. rewrite <- !Z.pow_add_r by lia. f_equal. ring. }
      rewrite Q in UY. assert (K2 : K = 2 * (A * 2 ^ (al - J - 1))).
      { replace (A * (2 ^ (al - J - 1) * 2 * 2 ^ J)) with (2 * (A * 2 ^ (al - J - 1)) * 2 ^ J) in UY by ring. apply Z.mul_cancel_r in UY; [symmetry; exact UY | clear - PJ; lia]. } rewrite K2, Z.odd_mul in OK. discriminate OK.
Qed.
Lemma add_core : forall u v A B al be Y K J g, Z.abs u = A * 2 ^ al -> Z.abs v = B * 2 ^ be -> 0 <= A < 2048 -> 0 <= B < 2048 -> 0 <= al -> 0 <= be ->
  2048 <= K < 4096 -> Z.odd K = true -> 0 <= J -> 0 <= g -> Y = K * 2 ^ J -> 2 ^ (23 + g) <= Z.abs (u + v) -> Z.abs (Y - Z.abs (u + v)) < 2 ^ g ->
  Y = Z.abs (u + v).
Proof.
  intros u v A B al be Y K J g EU EV HA HB HL HM HK OK HJ HG EY LB NEAR. destruct (Z.le_ge_cases (Z.abs v) (Z.abs u)) as [L | L].
  - apply (add_core_le u v A B al be Y K J g); assumption.
  - rewrite (Z.add_comm u v) in *. apply (add_core_le v u B A be al Y K J g); assumption.
Qed.
Lemma safe_add : forall rm a b, 0 <= a < 65536 -> 0 <= b < 65536 -> is_nan half a = false -> is_inf half a = false -> is_nan half b = false -> is_inf half b = false ->
  forall u v, Z.abs u = magnitude half a -> Z.abs v = magnitude half b -> u + v <> 0 -> safe rm (Z.abs (u + v)) (2 ^ 24).
Proof.
  intros rm a b Ha Hb NA IA NB IB u v EU EV N0. destruct (half_parts a Ha NA IA) as (A & al & HA & HL & EA). destruct (half_parts b Hb NB IB) as (B & be & HB & HM & EB).
  pose proof (half_bound a Ha NA IA) as BA. pose proof (half_bound b Hb NB IB) as BB. rewrite <- EU in EA, BA. rewrite <- EV in EB, BB. clear EU EV.
  set (p := Z.abs (u + v)) in *. assert (PP : 0 < p) by (unfold p; clear - N0; lia).
  assert (PB : p < 2 ^ 42) by (unfold p; clear - BA BB; change (2 ^ 42) with (4 * 2 ^ 40); lia). pose proof huge as HG.
  assert (LB : 2 ^ 23 * 2 ^ 24 <= p * 2 ^ 149).
  { apply Z.le_trans with (1 * 2 ^ 149); [vm_compute; congruence | apply Z.mul_le_mono_nonneg_r; [clear; lia | clear - PP; lia]]. }
  assert (UB : p * 2 ^ 149 < val single (top single - 1) * 2 ^ 24).
  { apply Z.lt_le_trans with (2 ^ 276 * 2 ^ 24); [| apply Z.mul_le_mono_nonneg_r; [clear; lia | exact HG]].
    apply Z.lt_trans with (2 ^ 42 * 2 ^ 149); [apply Z.mul_lt_mono_pos_r; [reflexivity | clear - PB; lia] | reflexivity]. }
  destruct (Z.le_gt_cases (2 ^ 24) p) as [BIG | SMALL].
  2:{ apply (safe_exact rm p (2 ^ 24) p 125); try assumption; try (clear; lia); try (clear - PP SMALL; lia); change (2 ^ 149) with (2 ^ 125 * 2 ^ 24); ring. }
  split; [exact LB |]. split; [exact UB |]. intros s Y.
  destruct (rounded_near single rm s p (2 ^ 24) ok_single PP ltac:(reflexivity) LB UB) as (g & G0 & G1 & G2 & _). fold Y in G2. change (sw single) with 23 in G1. change (quantum single) with 149 in G1, G2.
  change (2 ^ 149) with (DQ * 2 ^ 24) in *. assert (DP : 0 < DQ) by reflexivity. assert (TP : 0 < 2 ^ 24) by reflexivity.
  assert (L1 : 2 ^ (23 + g) <= p * DQ) by (clear - G1 TP; nia).
  assert (L2 : Z.abs (Y - p * DQ) < 2 ^ g).
  { replace (Y * 2 ^ 24 - p * (DQ * 2 ^ 24)) with ((Y - p * DQ) * 2 ^ 24) in G2 by ring. rewrite Z.abs_mul, (Z.abs_eq (2 ^ 24)) in G2 by (clear; lia). clear - G2 TP. nia. }
  split.
  - intros _ P HP E. destruct (mid_form P Y HP E) as (k & j & J0 & K & C & EY).
    assert (K1 : 1024 <= k).
    { destruct C as [-> | C]; [exfalso | exact C]. assert (YB : Y < 2 ^ 136) by (rewrite EY; change (2 ^ 136) with (4096 * 2 ^ (0 + 124)); clear - K; lia).
      assert (PG : 2 ^ g <= p * DQ) by (apply Z.le_trans with (2 ^ (23 + g)); [apply Z.pow_le_mono_r; clear - G0; lia | exact L1]).
      rewrite Z.pow_add_r in L1 by (clear - G0; lia). assert (PGP : 0 < 2 ^ g) by (apply pow2_pos; exact G0).
      assert (BIG' : 2 ^ 149 <= p * DQ) by (change (2 ^ 149) with (2 ^ 24 * DQ); clear - BIG DP; nia). change (2 ^ 23) with 8388608 in L1.
      assert (2 ^ 136 * 4 <= 2 ^ 149) by (vm_compute; congruence). clear - L1 L2 YB BIG' H PGP. lia. }
    assert (AM : forall w C c, Z.abs w = C * 2 ^ c -> 0 <= c -> Z.abs (w * DQ) = C * 2 ^ (c + 125)).
    { intros w D c EW HC. rewrite Z.abs_mul, EW, Z.pow_add_r by (clear - HC; lia). unfold DQ. rewrite Z.abs_eq by (clear; lia). ring. }
    assert (PQ : Z.abs (u * DQ + v * DQ) = p * DQ) by (rewrite <- Z.mul_add_distr_r, Z.abs_mul; fold p; rewrite (Z.abs_eq DQ) by (clear - DP; lia); reflexivity).
    assert (RES : Y = Z.abs (u * DQ + v * DQ)).
    { apply (add_core (u * DQ) (v * DQ) A B (al + 125) (be + 125) Y (2 * k + 1) (j + 124) g); try assumption; try (rewrite PQ; assumption).
      - apply AM; [exact EA | apply HL].
      - apply AM; [exact EB | apply HM].
      - clear - HL; lia.
      - clear - HM; lia.
      - clear - K K1; lia.
      - rewrite Z.add_comm, Z.odd_add_mul_2. reflexivity.
      - clear - J0; lia. }
    rewrite RES, PQ. ring.
  - intros SM. exfalso. clear - SM BIG DP TP. assert (p * (DQ * 2 ^ 24) < 1024 * (DQ * 2 ^ 24)) by lia. change (2 ^ 24) with 16777216 in *. nia.
Qed.
