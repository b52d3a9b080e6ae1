(** vfrsqrt7 and vfrec7: the table gives 7 good bits for every operand. *)
From Coq Require Import ZArith Bool List Lia.
From Verif Require Import Bits IeeeSpec FpSpec FarithSpec IntModel FpModel FarithModel FpProofs FpCvt FpWiden FarithProofs HalfProofs HalfConv HalfArith FarithExec FvSpec FvModel FvWide FvElem.
Import ListNotations.
Local Open Scope Z_scope.

Lemma land_top : forall s man, 0 < s -> 0 <= man < 2 ^ s -> (Z.land man (Z.shiftl 1 (s - 1)) =? 0) = (man <? 2 ^ (s - 1)).
Proof.
  intros s man Hs Hm. rewrite Z.shiftl_1_l. assert (P : 0 < 2 ^ (s - 1)) by (apply pow2_pos; lia). assert (E : 2 ^ s = 2 * 2 ^ (s - 1)) by (rewrite <- Z.pow_succ_r by lia; f_equal; lia).
  assert (T : Z.testbit man (s - 1) = negb (man <? 2 ^ (s - 1))).
  { destruct (Z.ltb_spec man (2 ^ (s - 1))) as [L | L]; cbn [negb].
    - apply (inw_testbit_high (s - 1) man (s - 1)); unfold inw; lia.
    - apply Z.testbit_true; [lia |]. replace (man / 2 ^ (s - 1)) with 1; [reflexivity |]. apply Z.div_unique with (man - 2 ^ (s - 1)); lia. }
  assert (D : Z.land man (2 ^ (s - 1)) = if Z.testbit man (s - 1) then 2 ^ (s - 1) else 0).
  { apply Z.bits_inj'. intros n Hn. rewrite Z.land_spec, Z.pow2_bits_eqb by lia. destruct (Z.eqb_spec (s - 1) n) as [<- | N].
    - rewrite andb_true_r. destruct (Z.testbit man (s - 1)); [rewrite Z.pow2_bits_true by lia; reflexivity | rewrite Z.bits_0; reflexivity].
    - rewrite andb_false_r. destruct (Z.testbit man (s - 1)); [rewrite Z.pow2_bits_false by lia; reflexivity | rewrite Z.bits_0; reflexivity]. }
  rewrite D, T. destruct (Z.ltb_spec man (2 ^ (s - 1))); cbn [negb]; [reflexivity |]. apply Z.eqb_neq. lia.
Qed.

(** The loop finds the leading one. *)
Lemma normalize_spec : forall f fuel e man, okf f -> 0 < man < 2 ^ sw f -> 2 ^ (sw f - 1) <= man * 2 ^ Z.of_nat fuel ->
  exists k, 0 <= k <= Z.of_nat fuel /\ normalize f fuel e man = (e - k, man * 2 ^ k) /\ 2 ^ (sw f - 1) <= man * 2 ^ k < 2 ^ sw f.
Proof.
  intros f fuel. induction fuel as [| n IH]; intros e man Ok Hm Hf; pose proof Ok as [He Hs].
  - exists 0. cbn [normalize Z.of_nat]. rewrite Z.sub_0_r, Z.pow_0_r, Z.mul_1_r in *. repeat split; try lia.
  - cbn [normalize]. rewrite land_top by lia. destruct (Z.ltb_spec man (2 ^ (sw f - 1))) as [L | L].
    + assert (E : 2 ^ sw f = 2 * 2 ^ (sw f - 1)) by (rewrite <- Z.pow_succ_r by lia; f_equal; lia).
      assert (W : 2 ^ sw f <= 2 ^ width f) by (apply Z.pow_le_mono_r; unfold width; lia).
      assert (SH : wrap (width f) (Z.shiftl man 1) = man * 2) by (rewrite Z.shiftl_mul_pow2 by lia; unfold wrap; change (2 ^ 1) with 2; apply Z.mod_small; clear - L E W Hm; lia).
      rewrite SH. rewrite Nat2Z.inj_succ, Z.pow_succ_r in Hf by lia.
      destruct (IH (e - 1) (man * 2) Ok ltac:(clear - L E Hm; lia) ltac:(rewrite <- Z.mul_assoc; exact Hf)) as (k & K1 & K2 & K3).
      exists (k + 1). rewrite K2. replace (man * 2 ^ (k + 1)) with (man * 2 * 2 ^ k) by (rewrite Z.pow_add_r by lia; change (2 ^ 1) with 2; ring).
      split; [lia |]. split; [f_equal; lia | exact K3].
    + exists 0. rewrite Z.sub_0_r, Z.pow_0_r, Z.mul_1_r. repeat split; try lia.
Qed.

(** The exponent [e] and fraction [F] of a nonzero finite number as if it were normal. *)
Lemma exp_mantissa_spec : forall f x, f = single \/ f = double -> 0 <= x < 2 ^ width f -> is_zero f x = false -> is_finite f x = true ->
  exists e M F, exp_mantissa f x = (e, M) /\ M mod 2 ^ sw f = F /\ 0 <= F < 2 ^ sw f /\ 0 <= M /\ 1 - sw f <= e < 2 ^ ew f - 1 /\
    magnitude f x * 2 ^ sw f = (2 ^ sw f + F) * 2 ^ (e - 1 + sw f) /\ (1 <= e -> e = expo f x).
Proof.
  intros f x Hf Hx Z0 FI. pose proof (sd_ok2 f Hf) as Ok. pose proof Ok as [He Hs].
  assert (SP : 0 < 2 ^ sw f) by (apply pow2_pos; lia). assert (EP : 0 < 2 ^ ew f) by (apply pow2_pos; lia).
  assert (EX : Z.shiftr (Z.land x (kExpMask f)) (sw f) = expo f x).
  { unfold kExpMask, expo. rewrite land_field by lia. rewrite Z.shiftr_shiftl_l by lia. rewrite Z.sub_diag. apply Z.shiftl_0_r. }
  assert (FR : Z.land x (kSigMask f) = frac f x) by (unfold kSigMask, frac; apply land_mask; lia).
  assert (ER : 0 <= expo f x < 2 ^ ew f) by (apply Z.mod_pos_bound; exact EP). assert (FR' : 0 <= frac f x < 2 ^ sw f) by (apply Z.mod_pos_bound; exact SP).
  assert (NS : expo f x <> 2 ^ ew f - 1) by (unfold is_finite, special in FI; apply Z.eqb_neq; destruct (expo f x =? _); [discriminate | reflexivity]).
  unfold exp_mantissa. rewrite EX, FR. destruct (Z.eqb_spec (expo f x) 0) as [E0 | E0].
  - assert (F0 : 0 < frac f x) by (unfold is_zero in Z0; rewrite E0 in Z0; cbn in Z0; apply Z.eqb_neq in Z0; lia).
    assert (HS : 2 ^ (sw f - 1) <= frac f x * 2 ^ Z.of_nat (Z.to_nat (sw f))).
    { rewrite Z2Nat.id by lia. assert (2 ^ (sw f - 1) <= 2 ^ sw f) by (apply Z.pow_le_mono_r; lia). clear - H F0 SP. nia. }
    destruct (normalize_spec f (Z.to_nat (sw f)) (expo f x) (frac f x) Ok ltac:(lia) HS) as (k & K1 & K2 & K3). rewrite K2, E0.
    assert (E : 2 ^ sw f = 2 * 2 ^ (sw f - 1)) by (rewrite <- Z.pow_succ_r by lia; f_equal; lia).
    assert (W : 2 * 2 ^ sw f <= 2 ^ width f) by (rewrite <- Z.pow_succ_r by lia; apply Z.pow_le_mono_r; unfold width; lia).
    assert (SH : wrap (width f) (Z.shiftl (frac f x * 2 ^ k) 1) = frac f x * 2 ^ k * 2) by (rewrite Z.shiftl_mul_pow2 by lia; unfold wrap; change (2 ^ 1) with 2; apply Z.mod_small; clear - K3 E W SP; lia).
    rewrite SH. assert (KB : k <= sw f - 1).
    { apply Z.lt_succ_r, Z.nle_gt. intros C. assert (2 ^ sw f <= 2 ^ k) by (apply Z.pow_le_mono_r; lia). clear - H K3 F0. nia. }
    assert (MM : (frac f x * 2 ^ k * 2) mod 2 ^ sw f = frac f x * 2 ^ k * 2 - 2 ^ sw f).
    { symmetry. apply Z.mod_unique with 1; [left | ]; clear - K3 E SP; lia. }
    exists (0 - k), (frac f x * 2 ^ k * 2), (frac f x * 2 ^ k * 2 - 2 ^ sw f). split; [reflexivity |]. split; [exact MM |].
    split; [clear - K3 E; lia |]. split; [clear - K3 SP E; lia |]. split; [assert (4 <= 2 ^ ew f) by (destruct Hf as [-> | ->]; cbn; lia); lia |]. split; [| lia].
    unfold magnitude. rewrite E0. change (0 =? 0) with true. cbv iota. replace (2 ^ sw f + (frac f x * 2 ^ k * 2 - 2 ^ sw f)) with (frac f x * (2 ^ k * 2 ^ 1)) by (change (2 ^ 1) with 2; ring).
    rewrite <- Z.mul_assoc, <- !Z.pow_add_r by lia. f_equal. f_equal. lia.
  - exists (expo f x), (frac f x), (frac f x). split; [reflexivity |]. split; [apply Z.mod_small; exact FR' |]. split; [exact FR' |]. split; [lia |]. split; [lia |]. split; [| reflexivity].
    unfold magnitude. replace (expo f x =? 0) with false by (symmetry; apply Z.eqb_neq; exact E0). rewrite <- Z.mul_assoc, <- Z.pow_add_r by lia. reflexivity.
Qed.

(** The table index: the leading bits of the fraction. *)
Lemma index_bits : forall s M w, 0 <= w <= s -> Z.land (Z.shiftr M (s - w)) (2 ^ w - 1) = M mod 2 ^ s / 2 ^ (s - w).
Proof.
  intros s M w Hw. rewrite land_mask by lia. apply Z.bits_inj'. intros n Hn. destruct (Z.ltb_spec n w).
  - rewrite Z.mod_pow2_bits_low by lia. rewrite Z.shiftr_spec by lia. rewrite Z.div_pow2_bits by lia. rewrite Z.mod_pow2_bits_low by lia. reflexivity.
  - rewrite Z.mod_pow2_bits_high by lia. rewrite Z.div_pow2_bits by lia. rewrite Z.mod_pow2_bits_high by lia. reflexivity.
Qed.

(** A positive normal pattern put together. *)
Lemma assemble : forall f E m, okf f -> 0 < E < 2 ^ ew f - 1 -> 0 <= m < 2 ^ sw f ->
  let r := Z.lor (wrap (width f) (Z.shiftl E (sw f))) m in
  r = E * 2 ^ sw f + m /\ 0 <= r < infinity f false /\ sign f r = false /\ is_finite f r = true /\ magnitude f r = (2 ^ sw f + m) * 2 ^ (E - 1).
Proof.
  intros f E m Ok HE Hm r. pose proof Ok as [He Hs]. assert (SP : 0 < 2 ^ sw f) by (apply pow2_pos; lia).
  assert (WW : 2 ^ width f = 2 * (2 ^ ew f * 2 ^ sw f)) by (rewrite <- Z.pow_add_r, <- Z.pow_succ_r by lia; f_equal; unfold width; lia).
  assert (SH : wrap (width f) (Z.shiftl E (sw f)) = E * 2 ^ sw f) by (rewrite Z.shiftl_mul_pow2 by lia; unfold wrap; apply Z.mod_small; clear - HE SP WW; nia).
  assert (R : r = E * 2 ^ sw f + m).
  { unfold r. rewrite SH, <- Z.shiftl_mul_pow2 by lia. rewrite Z.shiftl_mul_pow2 by lia.
    apply Z.bits_inj'. intros n Hn. rewrite Z.lor_spec. destruct (Z.ltb_spec n (sw f)).
    - rewrite Z.mul_pow2_bits_low by lia. cbn [orb]. rewrite <- (Z.mod_pow2_bits_low (E * 2 ^ sw f + m) (sw f)) by lia. rewrite Z.add_comm, Z.mod_add, Z.mod_small by lia. reflexivity.
    - rewrite (inw_testbit_high (sw f) m n) by (unfold inw; lia). rewrite orb_false_r. replace n with (n - sw f + sw f) by lia. rewrite <- !Z.div_pow2_bits by lia.
      rewrite Z.div_mul by lia. rewrite Z.add_comm, Z.div_add, (Z.div_small m) by lia. reflexivity. }
  split; [exact R |]. split; [rewrite R; unfold infinity, with_sign; cbn [Z.b2z]; clear - HE Hm SP; nia |].
  destruct (fields f false E m Ok ltac:(lia) Hm) as (F1 & F2 & F3 & _). change (with_sign f false (E * 2 ^ sw f + m)) with (E * 2 ^ sw f + m) in F1, F2, F3. rewrite <- R in F1, F2, F3.
  split; [exact F1 |]. split; [unfold is_finite, special; rewrite F2; apply negb_true_iff, Z.eqb_neq; lia |].
  unfold magnitude. rewrite F2, F3. replace (E =? 0) with false by (symmetry; apply Z.eqb_neq; lia). reflexivity.
Qed.

(** What the tables give for every index. *)
Definition rsqrt_ok (p h : nat) : bool :=
  let t := nth (64 * p + h) kRecipSqrtMantissaTable 0 in
  (0 <=? t) && (t <? 128) && (127 ^ 2 * 2 ^ (21 + Z.of_nat p) <? 128 ^ 2 * ((128 + t) ^ 2 * (64 + Z.of_nat h))) &&
  (128 ^ 2 * ((128 + t) ^ 2 * (65 + Z.of_nat h)) <=? 129 ^ 2 * 2 ^ (21 + Z.of_nat p)).
Lemma rsqrt_table : forall p h, (p < 2)%nat -> (h < 64)%nat -> (p, h) <> (1, 24)%nat -> rsqrt_ok p h = true.
Proof.
  assert (A : forallb (fun p => forallb (fun h => ((p =? 1)%nat && (h =? 24)%nat) || rsqrt_ok p h) (seq 0 64)) (seq 0 2) = true) by (vm_compute; reflexivity).
  intros p h Hp Hh N. rewrite forallb_forall in A. specialize (A p ltac:(apply in_seq; lia)). rewrite forallb_forall in A. specialize (A h ltac:(apply in_seq; lia)).
  apply orb_true_iff in A. destruct A as [A | A]; [| exact A]. apply andb_prop in A. destruct A as [A1 A2]. apply Nat.eqb_eq in A1, A2. subst. contradiction N; reflexivity.
Qed.
Definition rec_ok (h : nat) : bool :=
  let t := nth h kRecipMantissaTable 0 in
  (0 <=? t) && (t <? 128) && (127 * 2 ^ 15 <? 128 * ((128 + t) * (128 + Z.of_nat h))) && (128 * ((128 + t) * (129 + Z.of_nat h)) <=? 129 * 2 ^ 15).
Lemma rec_table : forall h, (h < 128)%nat -> rec_ok h = true.
Proof.
  assert (A : forallb rec_ok (seq 0 128) = true) by (vm_compute; reflexivity).
  intros h Hh. rewrite forallb_forall in A. apply A, in_seq. lia.
Qed.

Lemma lor64 : forall h, 0 <= h < 64 -> Z.lor 64 h = 64 + h.
Proof.
  intros h Hh. assert (A : forallb (fun n => Z.lor 64 (Z.of_nat n) =? 64 + Z.of_nat n) (seq 0 64) = true) by (vm_compute; reflexivity).
  rewrite forallb_forall in A. specialize (A (Z.to_nat h) ltac:(apply in_seq; lia)). rewrite Z2Nat.id in A by lia. apply Z.eqb_eq, A.
Qed.

(** The inequalities, with the powers of two abstracted. *)
Lemma rsqrt_bounds : forall t h p Y G K0 X R S Q, 0 <= t -> 0 <= h -> 0 <= p -> 0 < G -> 0 < K0 -> 0 < S -> (64 + h) * G <= Y < (65 + h) * G ->
  R * S = (128 + t) ^ 2 * (Y * K0) -> Q * S = 2 ^ (21 + p) * (G * K0) ->
  127 ^ 2 * 2 ^ (21 + p) < 128 ^ 2 * ((128 + t) ^ 2 * (64 + h)) -> 128 ^ 2 * ((128 + t) ^ 2 * (65 + h)) <= 129 ^ 2 * 2 ^ (21 + p) -> X = R ->
  127 ^ 2 * Q < 128 ^ 2 * X < 129 ^ 2 * Q.
Proof.
  intros t h p Y G K0 X R S Q Ht Hh Hp HG HK HS HY ER EQ L U ->. set (T := (128 + t) ^ 2) in *. assert (TP : 0 < T) by (unfold T; apply Z.pow_pos_nonneg; lia). set (B := 2 ^ (21 + p)) in *. clearbody T B.
  assert (GK : 0 < G * K0) by (apply Z.mul_pos_pos; assumption).
  assert (Y1 : T * ((64 + h) * (G * K0)) <= T * (Y * K0)) by (apply Z.mul_le_mono_nonneg_l; [lia |]; rewrite Z.mul_assoc; apply Z.mul_le_mono_nonneg_r; lia).
  assert (Y2 : T * (Y * K0) < T * ((65 + h) * (G * K0))) by (apply Z.mul_lt_mono_pos_l; [lia |]; rewrite Z.mul_assoc; apply Z.mul_lt_mono_pos_r; lia).
  revert Y1 Y2 GK ER EQ. generalize (G * K0), (Y * K0). intros g y Y1 Y2 GK ER EQ. change (127 ^ 2) with 16129 in *. change (128 ^ 2) with 16384 in *. change (129 ^ 2) with 16641 in *.
  split; apply (Z.mul_lt_mono_pos_r S); try exact HS.
  - replace (16129 * Q * S) with (16129 * (Q * S)) by ring. replace (16384 * R * S) with (16384 * (R * S)) by ring. rewrite ER, EQ.
    apply Z.lt_le_trans with (16384 * (T * ((64 + h) * g))); [| lia]. replace (16129 * (B * g)) with (16129 * B * g) by ring. replace (16384 * (T * ((64 + h) * g))) with (16384 * (T * (64 + h)) * g) by ring.
    apply Z.mul_lt_mono_pos_r; assumption.
  - replace (16641 * Q * S) with (16641 * (Q * S)) by ring. replace (16384 * R * S) with (16384 * (R * S)) by ring. rewrite ER, EQ.
    apply Z.lt_le_trans with (16384 * (T * ((65 + h) * g))); [lia |]. replace (16641 * (B * g)) with (16641 * B * g) by ring. replace (16384 * (T * ((65 + h) * g))) with (16384 * (T * (65 + h)) * g) by ring.
    apply Z.mul_le_mono_nonneg_r; [lia | exact U].
Qed.

Lemma rsqrt_elem : forall f x, f = single \/ f = double -> 0 <= x < 2 ^ width f ->
  x <> infinity f false -> is_nan f x = is_snan f x ->
  (forall k, ~ 88 * 2 ^ quantum f <= 64 * (units f x * 4 ^ k) < 89 * 2 ^ quantum f) ->
  (forall k, 0 < k -> ~ 88 * (2 ^ quantum f * 4 ^ k) <= 64 * units f x < 89 * (2 ^ quantum f * 4 ^ k)) ->
  rsqrt7 f x (fst (RecipSqrt7Helper f x)) (snd (RecipSqrt7Helper f x)) /\ 0 <= fst (RecipSqrt7Helper f x) < 2 ^ width f.
Proof.
  intros f x Hf Hx NI NS N1 N2. pose proof (sd_ok2 f Hf) as Ok. pose proof Ok as [He Hs].
  assert (Hin : In f formats) by (destruct Hf as [-> | ->]; cbn; auto).
  assert (CR : 0 <= canonical_nan f < 2 ^ width f) by (destruct Hf as [-> | ->]; vm_compute; split; congruence).
  assert (KN : kNegInf f = infinity f true /\ kPosInf f = infinity f false /\ 0 <= infinity f true < 2 ^ width f /\ 0 <= infinity f false < 2 ^ width f) by (destruct Hf as [-> | ->]; vm_compute; repeat split; congruence).
  destruct KN as (KN1 & KN2 & KN3 & KN4).
  unfold RecipSqrt7Helper, rsqrt7. rewrite IsInf_eq, IsNaN_eq, canonical_eq, zero_cmp by assumption. rewrite units_zero by exact Ok. unfold SignBit. fold (sign f x).
  destruct (is_nan f x) eqn:N.
  { assert (I : is_inf f x = false) by (unfold is_nan, is_inf in *; destruct (special f x), (frac f x =? 0); try discriminate; reflexivity).
    rewrite I. cbn [fst snd]. rewrite <- NS. split; [split; reflexivity | exact CR]. }
  destruct (is_inf f x) eqn:I.
  { assert (Z0 : is_zero f x = false) by (destruct (is_zero f x) eqn:Z; [rewrite (zero_not_inf f x Ok Z) in I; discriminate I | reflexivity]). rewrite Z0.
    destruct (sign f x) eqn:S; cbn [fst snd]; [split; [split; reflexivity | exact CR] |]. exfalso. apply NI. rewrite (inf_pattern f x Ok Hx I), S. reflexivity. }
  cbn [negb andb]. destruct (is_zero f x) eqn:Z0.
  { rewrite KN1, KN2. destruct (sign f x); cbn [fst snd]; (split; [split; reflexivity | assumption]). }
  destruct (sign f x) eqn:S; cbn [fst snd].
  { split; [split; reflexivity | exact CR]. }
  assert (SWB : 7 <= sw f) by (clear - Hf; destruct Hf as [-> | ->]; cbn; lia).
  assert (FI : is_finite f x = true) by (unfold is_finite; rewrite (special_of f x N I); reflexivity).
  destruct (exp_mantissa_spec f x Hf Hx Z0 FI) as (e & M & F & EM & MF & HF & HM & HE & MAG & _).
  unfold RecipSqrt7. rewrite EM. change 63 with (2 ^ 6 - 1). rewrite index_bits, MF by (clear - SWB; lia).
  set (h := F / 2 ^ (sw f - 6)). assert (GP : 0 < 2 ^ (sw f - 6)) by (apply pow2_pos; clear - SWB; lia).
  assert (S6 : 2 ^ sw f = 64 * 2 ^ (sw f - 6)) by (change 64 with (2 ^ 6); rewrite <- Z.pow_add_r by (clear - SWB; lia); f_equal; clear; lia).
  assert (Hh : 0 <= h < 64) by (unfold h; clear - GP HF S6; split; [apply Z.div_pos; lia | apply Z.div_lt_upper_bound; lia]).
  pose proof (Z.div_mod F (2 ^ (sw f - 6)) ltac:(clear - GP; lia)) as DM. pose proof (Z.mod_pos_bound F _ GP) as MB. fold h in DM.
  assert (HY : (64 + h) * 2 ^ (sw f - 6) <= 2 ^ sw f + F < (65 + h) * 2 ^ (sw f - 6)) by (rewrite S6; clear - DM MB; nia).
  set (p := e mod 2). assert (Hp : 0 <= p < 2) by (apply Z.mod_pos_bound; clear; lia).
  assert (EL : Z.land e 1 = p) by (change 1 with (2 ^ 1 - 1); rewrite land_mask by (clear; lia); reflexivity). rewrite EL.
  assert (IX : Z.lor (Z.shiftl p 6) h = 64 * p + h).
  { assert (p = 0 \/ p = 1) as [-> | ->] by (clear - Hp; lia); [apply Z.lor_0_l |]. change (Z.shiftl 1 6) with 64. apply lor64; exact Hh. }
  rewrite IX. replace (Z.to_nat (64 * p + h)) with (64 * Z.to_nat p + Z.to_nat h)%nat by (clear - Hp Hh; lia).
  (* the bad entry is excluded *)
  assert (BAD : (Z.to_nat p, Z.to_nat h) <> (1, 24)%nat).
  { intros E. injection E as E1 E2. assert (P1 : p = 1) by (clear - E1 Hp; lia). assert (H24 : h = 24) by (clear - E2 Hh; lia). rewrite H24, S6 in HY.
    assert (UX : units f x = magnitude f x) by (unfold units; rewrite S; reflexivity). unfold p in P1. pose proof (Z.div_mod e 2 ltac:(clear; lia)) as DE. rewrite P1 in DE.
    assert (BO : exists c, bias f = 2 * c + 1 /\ 0 <= c) by (destruct Hf as [-> | ->]; [exists 63 | exists 511]; split; reflexivity || discriminate). destruct BO as (c & BC & C0).
    assert (SP : 0 < 2 ^ sw f) by (apply pow2_pos; clear - SWB; lia). set (j := e / 2) in *.
    assert (F88 : 88 * 2 ^ sw f <= 64 * (2 ^ sw f + F) < 89 * 2 ^ sw f) by (rewrite S6; clear - HY; lia).
    destruct (Z.le_gt_cases j c) as [L | L].
    - apply (N1 (c - j)). rewrite UX. replace (4 ^ (c - j)) with (2 ^ (2 * (c - j))) by (rewrite Z.pow_mul_r by (clear - L; lia); reflexivity).
      assert (E3 : magnitude f x * 2 ^ (2 * (c - j)) * 2 ^ sw f = (2 ^ sw f + F) * 2 ^ quantum f).
      { replace (magnitude f x * 2 ^ (2 * (c - j)) * 2 ^ sw f) with (magnitude f x * 2 ^ sw f * 2 ^ (2 * (c - j))) by ring. rewrite MAG, <- Z.mul_assoc, <- Z.pow_add_r by (clear - L HE SWB; lia). f_equal. f_equal. unfold quantum. clear - BC DE; lia. }
      assert (QP : 0 < 2 ^ quantum f) by (apply pow2_pos; unfold quantum; clear - BC C0 SWB L; lia). revert E3 F88 QP. generalize (magnitude f x * 2 ^ (2 * (c - j))), (2 ^ quantum f). clear - SP. revert SP. generalize (2 ^ sw f). intros s SP m q E3 F88 QP. split; nia.
    - apply (N2 (j - c) ltac:(clear - L; lia)). rewrite UX. replace (4 ^ (j - c)) with (2 ^ (2 * (j - c))) by (rewrite Z.pow_mul_r by (clear - L; lia); reflexivity).
      assert (E3 : magnitude f x * 2 ^ sw f = (2 ^ sw f + F) * (2 ^ quantum f * 2 ^ (2 * (j - c)))).
      { rewrite MAG. f_equal. rewrite <- Z.pow_add_r by (unfold quantum; clear - BC C0 SWB L; lia). f_equal. unfold quantum. clear - BC DE; lia. }
      assert (QP : 0 < 2 ^ quantum f * 2 ^ (2 * (j - c))) by (apply Z.mul_pos_pos; apply pow2_pos; unfold quantum; clear - BC C0 SWB L; lia). revert E3 F88 QP. generalize (2 ^ quantum f * 2 ^ (2 * (j - c))), (magnitude f x). clear - SP. revert SP. generalize (2 ^ sw f). intros s SP q m E3 F88 QP. split; nia. }
  pose proof (rsqrt_table (Z.to_nat p) (Z.to_nat h) ltac:(clear - Hp; lia) ltac:(clear - Hh; lia) BAD) as T. unfold rsqrt_ok in T. rewrite !Z2Nat.id in T by (clear - Hp Hh; lia).
  set (t := nth (64 * Z.to_nat p + Z.to_nat h) kRecipSqrtMantissaTable 0) in *. apply andb_prop in T. destruct T as [T T4]. apply andb_prop in T. destruct T as [T T3]. apply andb_prop in T. destruct T as [T1 T2].
  apply Z.leb_le in T1, T4. apply Z.ltb_lt in T2, T3.
  (* the exponent *)
  assert (BO : exists c, bias f = 2 * c + 1 /\ 0 <= c /\ 2 ^ ew f = 4 * c + 4 /\ sw f < 2 * c /\ 9 <= c) by (clear - Hf; destruct Hf as [-> | ->]; [exists 63 | exists 511]; cbn; lia).
  destruct BO as (c & BC & C0 & CE & CS & C9).
  assert (NE : Z.quot (3 * bias f - 1 - e) 2 = 3 * c + 1 - e / 2 - p /\ 2 * (e / 2) + p = e).
  { pose proof (Z.div_mod e 2 ltac:(clear; lia)) as DE. fold p in DE. split; [| clear - DE; lia]. rewrite Z.quot_div_nonneg by (clear - HE BC CE C0; lia).
    symmetry. apply Z.div_unique with p; [left; clear - Hp; lia |]. clear - DE BC. lia. }
  destruct NE as [NE PE]. rewrite NE. set (ne := 3 * c + 1 - e / 2 - p) in *.
  assert (HN : 0 < ne < 2 ^ ew f - 1) by (clear - PE HE CE CS Hp C9 Hs; unfold ne; lia).
  assert (WN : wrap (width f) ne = ne) by (unfold wrap; apply Z.mod_small; assert (2 ^ ew f <= 2 ^ width f) by (apply Z.pow_le_mono_r; unfold width; clear - He Hs; lia); clear - HN H; lia). rewrite WN.
  assert (S7 : 2 ^ sw f = 128 * 2 ^ (sw f - 7)) by (change 128 with (2 ^ 7); rewrite <- Z.pow_add_r by (clear - SWB; lia); f_equal; clear; lia).
  assert (P7 : 0 < 2 ^ (sw f - 7)) by (apply pow2_pos; clear - SWB; lia).
  assert (TM : Z.shiftl t (sw f - 7) = t * 2 ^ (sw f - 7)) by (apply Z.shiftl_mul_pow2; clear - SWB; lia). rewrite TM.
  assert (TR : 0 <= t * 2 ^ (sw f - 7) < 2 ^ sw f) by (rewrite S7; clear - T1 T2 P7; nia).
  destruct (assemble f ne (t * 2 ^ (sw f - 7)) Ok HN TR) as (R1 & R2 & R3 & R4 & R5). set (r := Z.lor (wrap (width f) (Z.shiftl ne (sw f))) (t * 2 ^ (sw f - 7))) in *.
  split; [| clear - R2 KN4; lia]. split; [reflexivity |]. split; [exact R2 |].
  split.
  { rewrite R1, S7. replace (ne * (128 * 2 ^ (sw f - 7)) + t * 2 ^ (sw f - 7)) with ((ne * 128 + t) * 2 ^ (sw f - 7)) by ring. apply Z.mod_mul. clear - P7; lia. }
  assert (UR : units f r = (128 + t) * (2 ^ (sw f - 7) * 2 ^ (ne - 1))) by (unfold units; rewrite R3, R5, S7; ring).
  assert (UX : units f x = magnitude f x) by (unfold units; rewrite S; reflexivity).
  assert (SP : 0 < 2 ^ sw f) by (apply pow2_pos; clear - SWB; lia).
  assert (SW7 : 0 <= sw f - 7) by (clear - SWB; lia).
  apply (rsqrt_bounds t h p (2 ^ sw f + F) (2 ^ (sw f - 6)) (2 ^ (2 * (sw f - 7 + (ne - 1))) * 2 ^ (e - 1 + sw f)) (units f r ^ 2 * units f x) (units f r ^ 2 * units f x) (2 ^ sw f) (2 ^ (3 * quantum f)));
    try assumption; try reflexivity; try (clear - Hp Hh; lia).
  - apply Z.mul_pos_pos; apply pow2_pos; [clear - SW7 HN; lia | clear - HE; lia].
  - rewrite UR, UX. replace (((128 + t) * (2 ^ (sw f - 7) * 2 ^ (ne - 1))) ^ 2 * magnitude f x * 2 ^ sw f) with ((128 + t) ^ 2 * ((2 ^ (sw f - 7) * 2 ^ (ne - 1)) ^ 2 * (magnitude f x * 2 ^ sw f))) by ring.
    rewrite MAG. rewrite <- Z.pow_add_r by (clear - SW7 HN; lia). rewrite <- Z.pow_mul_r by (clear - SW7 HN; lia). rewrite (Z.mul_comm (sw f - 7 + (ne - 1)) 2). ring.
  - rewrite <- !Z.pow_add_r by (clear - SW7 HN HE Hp BC C0 Hs; unfold quantum; lia). f_equal. unfold quantum, ne. clear - BC PE. lia.
Qed.

Lemma rec_bounds : forall t h Y G K0 R S Q, 0 <= t -> 0 <= h -> 0 < G -> 0 < K0 -> 0 < S -> (128 + h) * G <= Y < (129 + h) * G ->
  R * S = (128 + t) * (Y * K0) -> Q * S = 2 ^ 15 * (G * K0) ->
  127 * 2 ^ 15 < 128 * ((128 + t) * (128 + h)) -> 128 * ((128 + t) * (129 + h)) <= 129 * 2 ^ 15 ->
  127 * Q < 128 * R < 129 * Q.
Proof.
  intros t h Y G K0 R S Q Ht Hh HG HK HS HY ER EQ L U. set (T := 128 + t) in *. assert (TP : 0 < T) by (unfold T; lia). set (B := 2 ^ 15) in *. clearbody T B.
  assert (GK : 0 < G * K0) by (apply Z.mul_pos_pos; assumption).
  assert (Y1 : T * ((128 + h) * (G * K0)) <= T * (Y * K0)) by (apply Z.mul_le_mono_nonneg_l; [lia |]; rewrite Z.mul_assoc; apply Z.mul_le_mono_nonneg_r; lia).
  assert (Y2 : T * (Y * K0) < T * ((129 + h) * (G * K0))) by (apply Z.mul_lt_mono_pos_l; [lia |]; rewrite Z.mul_assoc; apply Z.mul_lt_mono_pos_r; lia).
  revert Y1 Y2 GK ER EQ. generalize (G * K0), (Y * K0). intros g y Y1 Y2 GK ER EQ.
  split; apply (Z.mul_lt_mono_pos_r S); try exact HS.
  - replace (127 * Q * S) with (127 * (Q * S)) by ring. replace (128 * R * S) with (128 * (R * S)) by ring. rewrite ER, EQ.
    apply Z.lt_le_trans with (128 * (T * ((128 + h) * g))); [| lia]. replace (127 * (B * g)) with (127 * B * g) by ring. replace (128 * (T * ((128 + h) * g))) with (128 * (T * (128 + h)) * g) by ring.
    apply Z.mul_lt_mono_pos_r; assumption.
  - replace (129 * Q * S) with (129 * (Q * S)) by ring. replace (128 * R * S) with (128 * (R * S)) by ring. rewrite ER, EQ.
    apply Z.lt_le_trans with (128 * (T * ((129 + h) * g))); [lia |]. replace (129 * (B * g)) with (129 * B * g) by ring. replace (128 * (T * ((129 + h) * g))) with (128 * (T * (129 + h)) * g) by ring.
    apply Z.mul_le_mono_nonneg_r; [lia | exact U].
Qed.

Lemma rec_elem : forall f rm x, f = single \/ f = double -> 0 <= x < 2 ^ width f -> is_zero f x = false -> is_snan f x = false ->
  (is_finite f x = true -> recip_overflows f x = false /\ expo f x < 2 ^ ew f - 3) ->
  rec7 f rm x (Recip7Helper f rm x) 0 /\ 0 <= Recip7Helper f rm x < 2 ^ width f.
Proof.
  intros f rm x Hf Hx Z0 SN OV. pose proof (sd_ok2 f Hf) as Ok. pose proof Ok as [He Hs].
  assert (Hin : In f formats) by (destruct Hf as [-> | ->]; cbn; auto).
  assert (CR : 0 <= canonical_nan f < 2 ^ width f) by (destruct Hf as [-> | ->]; vm_compute; split; congruence).
  unfold Recip7Helper, rec7. rewrite IsInf_eq, IsNaN_eq, canonical_eq, zero_cmp by assumption. rewrite units_zero by exact Ok. unfold SignBit. fold (sign f x). rewrite Z0, SN.
  destruct (is_nan f x) eqn:N.
  { assert (I : is_inf f x = false) by (unfold is_nan, is_inf in *; destruct (special f x), (frac f x =? 0); try discriminate; reflexivity).
    rewrite I. split; [split; reflexivity | exact CR]. }
  destruct (is_inf f x) eqn:I.
  { assert (NZ : neg f 0 = zero f true /\ 0 = zero f false /\ 0 <= zero f true < 2 ^ width f /\ 0 < 2 ^ width f) by (destruct Hf as [-> | ->]; vm_compute; repeat split; congruence).
    destruct NZ as (NZ1 & NZ2 & NZ3 & NZ4). destruct (sign f x); (split; [split; [exact NZ1 || exact NZ2 | reflexivity] |]); [rewrite NZ1; exact NZ3 | clear - NZ4; lia]. }
  cbn [negb andb].
  assert (SWB : 7 <= sw f) by (clear - Hf; destruct Hf as [-> | ->]; cbn; lia).
  assert (FI : is_finite f x = true) by (unfold is_finite; rewrite (special_of f x N I); reflexivity).
  destruct (OV FI) as [RO EB]. rewrite RO. destruct (exp_mantissa_spec f x Hf Hx Z0 FI) as (e & M & F & EM & MF & HF & HM & HE & MAG & EE).
  assert (CB : 2 ^ ew f = 2 * bias f + 2 /\ 3 <= bias f) by (clear - Hf; destruct Hf as [-> | ->]; cbn; lia). destruct CB as [CB B3].
  assert (SP : 0 < 2 ^ sw f) by (apply pow2_pos; clear - SWB; lia).
  assert (E1 : - 1 <= e <= 2 * bias f - 2).
  { split; [| clear - EE EB CB B3; lia]. unfold recip_overflows in RO. apply Z.ltb_ge in RO. apply Z.nlt_ge. intros C.
    assert (P1 : 2 ^ (e - 1 + sw f) <= 2 ^ (sw f - 3)) by (apply Z.pow_le_mono_r; clear - C; lia).
    assert (P2 : 2 ^ (sw f - 2) = 2 * 2 ^ (sw f - 3)) by (rewrite <- Z.pow_succ_r by (clear - SWB; lia); f_equal; clear; lia).
    assert (P3 : 0 < 2 ^ (sw f - 3)) by (apply pow2_pos; clear - SWB; lia). rewrite P2 in RO. revert MAG P1 P3 RO HF SP.
    generalize (2 ^ (e - 1 + sw f)), (2 ^ (sw f - 3)), (magnitude f x), (2 ^ sw f). clear. intros u v m s MAG P1 P3 RO HF SP. nia. }
  unfold Recip7. rewrite EM. set (ne := 2 * bias f - 1 - e).
  assert (HN : 0 < ne < 2 ^ ew f - 1) by (unfold ne; clear - E1 CB; lia).
  replace (2 * bias f <? ne) with false by (symmetry; apply Z.ltb_ge; unfold ne; clear - E1; lia).
  replace (ne <=? 0) with false by (symmetry; apply Z.leb_gt; clear - HN; lia).
  change 127 with (2 ^ 7 - 1) at 1. change (Z.land (Z.shiftr M (sw f - 7)) 127) with (Z.land (Z.shiftr M (sw f - 7)) (2 ^ 7 - 1)). rewrite index_bits, MF by (clear - SWB; lia).
  set (h := F / 2 ^ (sw f - 7)). assert (P7 : 0 < 2 ^ (sw f - 7)) by (apply pow2_pos; clear - SWB; lia).
  assert (S7 : 2 ^ sw f = 128 * 2 ^ (sw f - 7)) by (change 128 with (2 ^ 7); rewrite <- Z.pow_add_r by (clear - SWB; lia); f_equal; clear; lia).
  assert (Hh : 0 <= h < 128) by (unfold h; clear - P7 HF S7; split; [apply Z.div_pos; lia | apply Z.div_lt_upper_bound; lia]).
  pose proof (Z.div_mod F (2 ^ (sw f - 7)) ltac:(clear - P7; lia)) as DM. pose proof (Z.mod_pos_bound F _ P7) as MB. fold h in DM.
  assert (HY : (128 + h) * 2 ^ (sw f - 7) <= 2 ^ sw f + F < (129 + h) * 2 ^ (sw f - 7)) by (rewrite S7; clear - DM MB; nia).
  pose proof (rec_table (Z.to_nat h) ltac:(clear - Hh; lia)) as T. unfold rec_ok in T. rewrite !Z2Nat.id in T by (clear - Hh; lia).
  set (t := nth (Z.to_nat h) kRecipMantissaTable 0) in *. apply andb_prop in T. destruct T as [T T4]. apply andb_prop in T. destruct T as [T T3]. apply andb_prop in T. destruct T as [T1 T2].
  apply Z.leb_le in T1, T4. apply Z.ltb_lt in T2, T3.
  assert (TM : Z.shiftl t (sw f - 7) = t * 2 ^ (sw f - 7)) by (apply Z.shiftl_mul_pow2; clear - SWB; lia). rewrite TM.
  assert (TR : 0 <= t * 2 ^ (sw f - 7) < 2 ^ sw f) by (rewrite S7; clear - T1 T2 P7; nia).
  destruct (assemble f ne (t * 2 ^ (sw f - 7)) Ok HN TR) as (R1 & R2 & R3 & R4 & R5). set (r := Z.lor (wrap (width f) (Z.shiftl ne (sw f))) (t * 2 ^ (sw f - 7))) in *.
  assert (RR : 0 <= r < 2 ^ width f) by (assert (infinity f false < 2 ^ width f) by (destruct Hf as [-> | ->]; vm_compute; reflexivity); clear - R2 H; lia).
  assert (U0 : units f 0 = 0) by (unfold units; rewrite magnitude_0 by exact Ok; destruct (sign f 0); reflexivity). assert (NN0 : is_nan f 0 = false) by (destruct Hf as [-> | ->]; reflexivity).
  unfold host_lt. rewrite N, NN0, U0. cbn [negb andb]. pose proof (magnitude_pos f x Ok Z0) as MP.
  assert (BD : 127 * 2 ^ (2 * quantum f) < 128 * (magnitude f r * magnitude f x) < 129 * 2 ^ (2 * quantum f)).
  { apply (rec_bounds t h (2 ^ sw f + F) (2 ^ (sw f - 7)) (2 ^ (sw f - 7) * 2 ^ (ne - 1) * 2 ^ (e - 1 + sw f)) _ (2 ^ sw f) (2 ^ (2 * quantum f)) T1 (proj1 Hh) P7); try assumption.
    - apply Z.mul_pos_pos; [apply Z.mul_pos_pos |]; apply pow2_pos; [clear - SWB; lia | clear - HN; lia | clear - HE; lia].
    - replace (magnitude f r * magnitude f x * 2 ^ sw f) with (magnitude f r * (magnitude f x * 2 ^ sw f)) by ring. rewrite MAG, R5, S7. ring.
    - rewrite <- !Z.pow_add_r by (clear - SWB HN HE B3; unfold quantum; lia). f_equal. unfold quantum, ne. clear. lia. }
  assert (LT : (units f x <? 0) = sign f x) by (unfold units; destruct (sign f x); [apply Z.ltb_lt | apply Z.ltb_ge]; clear - MP; lia). rewrite LT.
  destruct (sign f x) eqn:S.
  - rewrite neg_flip by exact Ok.
    destruct (flip_facts f r Ok RR) as (G1 & G2 & G3 & G4 & G5 & _ & _ & _ & _ & G10 & _).
    split; [| exact G4]. split; [reflexivity |]. split; [exact G4 |]. split; [unfold is_finite, special in *; rewrite G2; exact R4 |]. split; [rewrite G1, R3; reflexivity |].
    rewrite G10. replace (units f r) with (magnitude f r) by (unfold units; rewrite R3; reflexivity). replace (units f x) with (- magnitude f x) by (unfold units; rewrite S; reflexivity).
    rewrite Z.mul_opp_opp. exact BD.
  - split; [| exact RR]. split; [reflexivity |]. split; [exact RR |]. split; [exact R4 |]. split; [exact R3 |].
    replace (units f r) with (magnitude f r) by (unfold units; rewrite R3; reflexivity). replace (units f x) with (magnitude f x) by (unfold units; rewrite S; reflexivity). exact BD.
Qed.

Definition recip (o : fvop) : bool := match o with Vfrsqrt7 | Vfrec7 => true | _ => false end.
Lemma recip_elem : forall H wide o sew frm x y z wd w2 w1, recip o = true -> In sew (fsews o) -> fwidths o sew = (wd, w2, w1) -> fv_safe o (8 * sew) x -> 0 <= x < 2 ^ (8 * w2) ->
  exists r fl, elem_fn H wide o (8 * sew) frm true x y z = Some (r, fl) /\ fvrel o (8 * sew) frm true x y z (wrap (8 * wd) r) fl.
Proof.
  intros H wide o sew frm x y z wd w2 w1 Ro Hs Hw Safe Hx.
  assert (SEW : sew = 4 \/ sew = 8) by (destruct o; try discriminate Ro; cbn in Hs; clear - Hs; lia).
  set (f := ffmt (8 * sew)) in *. assert (Ff : f = single \/ f = double) by apply ffmt_cases.
  assert (Wf : width f = 8 * sew) by (unfold f; destruct SEW as [-> | ->]; reflexivity).
  destruct o; try discriminate Ro; cbn [fwidths] in Hw; injection Hw as <- <- <-; rewrite <- Wf in Hx; cbn [elem_fn fvrel fv_safe] in *; rewrite ctype_ffmt; fold f; fold f in Safe.
  - destruct Safe as (S1 & S2 & S3 & S4). destruct (rsqrt_elem f x Ff Hx S1 S2 S3 S4) as [R1 R2]. eexists _, _. split; [apply f_equal, surjective_pairing |].
    rewrite <- Wf. unfold wrap. rewrite Z.mod_small by exact R2. exact R1.
  - destruct Safe as (S1 & S2 & S3). destruct (rec_elem f frm x Ff Hx S1 S2 S3) as [R1 R2]. eexists _, _. split; [reflexivity |].
    rewrite <- Wf. unfold wrap. rewrite Z.mod_small by exact R2. exact R1.
Qed.
