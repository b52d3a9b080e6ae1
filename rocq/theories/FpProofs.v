(** Proofs about the floating-point model: formats, boxing, comparison, classification. *)
From Coq Require Import ZArith Bool List Lia.
From Verif Require Import Bits IeeeSpec FpSpec IntModel FpModel.
Import ListNotations.
Local Open Scope Z_scope.

(** * Fields *)

Definition okf (f : fmt) : Prop := 2 <= ew f /\ 2 <= sw f.
Lemma formats_ok : forall f, In f formats -> okf f.
Proof. intros f [<- | [<- | [<- | []]]]; unfold okf; cbn; lia. Qed.

Lemma land_field : forall x s e, 0 <= s -> 0 <= e ->
  Z.land x (Z.shiftl (2 ^ e - 1) s) = Z.shiftl (x / 2 ^ s mod 2 ^ e) s.
Proof.
  intros x s e Hs He. apply Z.bits_inj'. intros n Hn.
  rewrite Z.land_spec. replace (2 ^ e - 1) with (Z.ones e) by (rewrite Z.ones_equiv; lia).
  destruct (Z.ltb_spec n s).
  - rewrite !Z.shiftl_spec_low by lia. apply andb_false_r.
  - rewrite !Z.shiftl_spec by lia. rewrite Z.testbit_ones by lia.
    destruct (Z.ltb_spec (n - s) e).
    + rewrite Z.mod_pow2_bits_low by lia. rewrite Z.div_pow2_bits by lia.
      replace (n - s + s) with n by lia.
      replace (0 <=? n - s) with true by (symmetry; apply Z.leb_le; lia). apply andb_true_r.
    + rewrite Z.mod_pow2_bits_high by lia. rewrite !andb_false_r. reflexivity.
Qed.

Lemma land_mask : forall x s, 0 <= s -> Z.land x (2 ^ s - 1) = x mod 2 ^ s.
Proof. intros. replace (2 ^ s - 1) with (Z.ones s) by (rewrite Z.ones_equiv; lia). apply Z.land_ones. lia. Qed.

Lemma eqb_shiftl : forall a b s, 0 <= s -> (Z.shiftl a s =? Z.shiftl b s) = (a =? b).
Proof.
  intros a b s Hs. rewrite !Z.shiftl_mul_pow2 by lia. pose proof (pow2_pos s Hs).
  destruct (Z.eqb_spec a b) as [-> | N]; [apply Z.eqb_refl | apply Z.eqb_neq; nia].
Qed.

Lemma special_mask : forall f x, okf f -> (Z.land x (kExpMask f) =? kExpMask f) = special f x.
Proof.
  intros f x [H1 H2]. unfold kExpMask, special, expo. rewrite land_field by lia. apply eqb_shiftl. lia.
Qed.
Lemma IsNaN_eq : forall f x, okf f -> IsNaN f x = is_nan f x.
Proof.
  intros f x H. unfold IsNaN, is_nan, kSigMask, frac. rewrite special_mask by assumption.
  destruct H. rewrite land_mask by lia. reflexivity.
Qed.
Lemma IsSNaN_eq : forall f x, okf f -> IsSNaN f x = is_snan f x.
Proof. intros f x H. unfold IsSNaN, is_snan. rewrite IsNaN_eq by assumption. reflexivity. Qed.
Lemma IsInf_eq : forall f x, okf f -> IsInf f x = is_inf f x.
Proof.
  intros f x H. unfold IsInf, is_inf, kSigMask, frac. rewrite special_mask by assumption.
  destruct H. rewrite land_mask by lia. reflexivity.
Qed.
Lemma canonical_eq : forall f, In f formats -> kCanonicalNaN f = canonical_nan f.
Proof. intros f [<- | [<- | [<- | []]]]; reflexivity. Qed.

(** * Boxing *)

Lemma box_mask : forall r w W, 0 <= w <= W -> 0 <= r < 2 ^ W ->
  (Z.land (wrap W (Z.shiftl (2 ^ W - 1) w)) r =? wrap W (Z.shiftl (2 ^ W - 1) w)) =
  (r / 2 ^ w =? 2 ^ (W - w) - 1).
Proof.
  intros r w W Hw Hr.
  assert (E : wrap W (Z.shiftl (2 ^ W - 1) w) = Z.shiftl (2 ^ (W - w) - 1) w).
  { apply Z.bits_inj'. intros n Hn. rewrite wrap_testbit by lia.
    replace (2 ^ W - 1) with (Z.ones W) by (rewrite Z.ones_equiv; lia).
    replace (2 ^ (W - w) - 1) with (Z.ones (W - w)) by (rewrite Z.ones_equiv; lia).
    destruct (Z.ltb_spec n w).
    - rewrite !Z.shiftl_spec_low by lia. apply andb_false_r.
    - rewrite !Z.shiftl_spec by lia. rewrite !Z.testbit_ones by lia.
      replace (0 <=? n - w) with true by (symmetry; apply Z.leb_le; lia).
      destruct (Z.ltb_spec n W), (Z.ltb_spec (n - w) W), (Z.ltb_spec (n - w) (W - w)); cbn; lia. }
  rewrite E, Z.land_comm, land_field by lia. rewrite eqb_shiftl by lia.
  f_equal. apply Z.mod_small. split; [apply Z.div_pos; [lia | apply pow2_pos; lia] |].
  apply Z.div_lt_upper_bound; [apply pow2_pos; lia |]. rewrite <- Z.pow_add_r by lia.
  replace (w + (W - w)) with W by lia. lia.
Qed.

Definition reg (r : Z) : Prop := 0 <= r < 2 ^ 64.

Lemma get_at : forall s i w r, nth_error s i = Some r -> get s i w = Some (r mod 2 ^ w).
Proof. intros s i w r H. unfold get. rewrite H. reflexivity. Qed.

Lemma source_read : forall f canon s i r, In f formats -> nth_error s i = Some r -> reg r ->
  canon = canonical_nan f \/ boxed f r = true ->
  boxed_source 64 (width f) canon s i = Some (unbox f r).
Proof.
  intros f canon s i r Hf Hn Hr HC. unfold boxed_source, unbox.
  rewrite !(get_at _ _ _ _ Hn). cbn [bind].
  rewrite (Z.mod_small r (2 ^ 64)) by exact Hr.
  rewrite box_mask; [|destruct Hf as [<- | [<- | [<- | []]]]; cbn; lia | exact Hr].
  change (r / 2 ^ width f =? 2 ^ (64 - width f) - 1) with (boxed f r).
  destruct (64 <=? width f) eqn:E64.
  - assert (f = double) by (destruct Hf as [<- | [<- | [<- | []]]]; try discriminate E64; reflexivity).
    subst f. unfold boxed. cbn [width double ew sw]. change (FLEN - (1 + 11 + 52)) with 0.
    unfold reg in Hr. change (1 + 11 + 52) with 64. rewrite Z.div_small by exact Hr. reflexivity.
  - destruct (boxed f r) eqn:B; cbn [negb]; [reflexivity |].
    destruct HC as [-> | HC]; [reflexivity | discriminate HC].
Qed.

Lemma unbox_range : forall f r, In f formats -> 0 <= unbox f r < 2 ^ width f.
Proof.
  intros f r Hf. unfold unbox. destruct (boxed f r).
  - apply Z.mod_pos_bound. destruct Hf as [<- | [<- | [<- | []]]]; reflexivity.
  - destruct Hf as [<- | [<- | [<- | []]]]; cbn; lia.
Qed.
Lemma unbox_double : forall r, reg r -> unbox double r = r.
Proof.
  intros r Hr. unfold unbox, boxed. change (FLEN - width double) with 0. change (width double) with 64.
  rewrite Z.div_small by exact Hr. cbn. apply Z.mod_small. exact Hr.
Qed.

Lemma lor_box : forall f v, In f formats -> 0 <= v < 2 ^ width f ->
  Z.lor (wrap 64 (Z.shiftl (2 ^ 64 - 1) (width f))) v = box f v.
Proof.
  intros f v Hf Hv. unfold box.
  assert (E : wrap 64 (Z.shiftl (2 ^ 64 - 1) (width f)) = (2 ^ (FLEN - width f) - 1) * 2 ^ width f)
    by (destruct Hf as [<- | [<- | [<- | []]]]; reflexivity).
  rewrite E. assert (0 <= width f) by (destruct Hf as [<- | [<- | [<- | []]]]; cbn; lia).
  rewrite <- Z.shiftl_mul_pow2 by lia.
  rewrite <- Z.lxor_lor, <- Z.add_nocarry_lxor; [reflexivity | |];
    apply Z.bits_inj'; intros n Hn; rewrite Z.land_spec, Z.bits_0;
    (destruct (Z.ltb_spec n (width f));
     [rewrite Z.shiftl_spec_low by lia; reflexivity |
      rewrite (inw_testbit_high (width f) v n) by (unfold inw; lia); apply andb_false_r]).
Qed.

Lemma nanbox_single : forall old v, 0 <= v < 2 ^ 32 -> nanbox 64 32 old v = box single v.
Proof.
  intros old v Hv. unfold nanbox. change (32 <? 64) with true. cbv iota. change (64 - 32) with (width single).
  apply lor_box; [right; left; reflexivity | exact Hv].
Qed.
Lemma set_low_all : forall w old v, 0 <= w -> 0 <= old < 2 ^ w -> set_low w old v = wrap w v.
Proof.
  intros w old v Hw Ho. unfold set_low. rewrite Z.shiftr_div_pow2 by lia. rewrite Z.div_small by lia.
  rewrite Z.shiftl_0_l. reflexivity.
Qed.
Lemma box_double : forall v, box double v = v.
Proof. intros v. unfold box. change (FLEN - width double) with 0. cbn. reflexivity. Qed.
Lemma nanbox_z_box : forall f old v, In f formats -> reg old -> 0 <= v < 2 ^ width f ->
  nanbox_z 64 (width f) old v = box f v.
Proof.
  intros f old v Hf Ho Hv. unfold nanbox_z. destruct (Z.ltb_spec (width f) 64).
  - apply lor_box; assumption.
  - assert (f = double) by (destruct Hf as [<- | [<- | [<- | []]]]; cbn in H; [lia | lia | reflexivity]).
    subst f. rewrite box_double. change (width double) with 64 in *.
    rewrite set_low_all by (unfold reg in Ho; lia). apply wrap_id. unfold inw. lia.
Qed.

Lemma box_unbox : forall f v, In f formats -> 0 <= v < 2 ^ width f -> unbox f (box f v) = v /\ boxed f (box f v) = true.
Proof.
  intros f v Hf Hv. assert (B : boxed f (box f v) = true).
  { unfold boxed, box. rewrite Z.div_add_l by lia. rewrite Z.div_small by exact Hv.
    rewrite Z.add_0_r. apply Z.eqb_refl. }
  split; [| exact B]. unfold unbox. rewrite B. unfold box.
  rewrite Z.add_comm, Z.mod_add by lia. apply Z.mod_small. exact Hv.
Qed.

(** * Values *)

Lemma magnitude_lt : forall f x y, okf f -> 0 <= x < y -> y < 2 ^ (width f - 1) -> magnitude f x < magnitude f y.
Proof.
  intros f x y [He Hs] Hxy Hy. unfold magnitude, expo, frac.
  set (P := 2 ^ sw f) in *. assert (HP : 0 < P) by (apply pow2_pos; lia).
  assert (HW : 2 ^ (width f - 1) = 2 ^ ew f * P).
  { unfold P. rewrite <- Z.pow_add_r by lia. f_equal. unfold width. lia. }
  assert (HX : x = P * (x / P) + x mod P) by (apply Z.div_mod; lia).
  assert (HY : y = P * (y / P) + y mod P) by (apply Z.div_mod; lia).
  pose proof (Z.mod_pos_bound x P HP) as RX. pose proof (Z.mod_pos_bound y P HP) as RY.
  assert (EX : 0 <= x / P) by (apply Z.div_pos; lia). assert (EY : 0 <= y / P) by (apply Z.div_pos; lia).
  assert (EW : 0 < 2 ^ ew f) by (apply pow2_pos; lia).
  assert (LX : x / P < 2 ^ ew f) by (apply Z.div_lt_upper_bound; nia).
  assert (LY : y / P < 2 ^ ew f) by (apply Z.div_lt_upper_bound; nia).
  rewrite !(Z.mod_small (_ / P)) by lia.
  revert HX HY RX RY EX EY LX LY Hxy. generalize (x / P), (y / P), (x mod P), (y mod P).
  intros a b c d HX HY RX RY EX EY LX LY Hxy.
  assert (C : a < b \/ a = b /\ c < d) by (destruct (Z.lt_trichotomy a b) as [L | [E | G]]; [left; lia | right; split; [lia | nia] | nia]).
  clear HX HY Hxy HW Hy LX LY.
  destruct (Z.eqb_spec a 0) as [-> | NA]; destruct (Z.eqb_spec b 0) as [-> | NB].
  - lia.
  - assert (1 <= 2 ^ (b - 1)) by (pose proof (pow2_pos (b - 1)); lia). nia.
  - lia.
  - destruct C as [L | [-> L]].
    + assert (Q : 2 ^ (b - 1) = 2 ^ (a - 1) * 2 ^ (b - a)) by (rewrite <- Z.pow_add_r by lia; f_equal; lia).
      assert (2 <= 2 ^ (b - a)).
      { replace (b - a) with (1 + (b - a - 1)) by lia. rewrite Z.pow_add_r by lia.
        pose proof (pow2_pos (b - a - 1)). lia. }
      assert (0 < 2 ^ (a - 1)) by (apply pow2_pos; lia). rewrite Q.
      apply Z.lt_le_trans with ((P + P) * 2 ^ (a - 1)); [nia |].
      replace ((P + d) * (2 ^ (a - 1) * 2 ^ (b - a))) with ((P + d) * 2 ^ (b - a) * 2 ^ (a - 1)) by ring.
      apply Z.mul_le_mono_nonneg_r; [lia | nia].
    + assert (0 < 2 ^ (b - 1)) by (apply pow2_pos; lia). nia.
Qed.

Lemma magnitude_0 : forall f, okf f -> magnitude f 0 = 0.
Proof. intros f [He Hs]. unfold magnitude, expo, frac. rewrite Z.div_0_l, !Z.mod_0_l by (pose proof (pow2_pos (sw f)); pose proof (pow2_pos (ew f)); lia). reflexivity. Qed.

(** The magnitude ignores the sign bit. *)
Lemma split_sign : forall f x, okf f -> 0 <= x < 2 ^ width f ->
  x = with_sign f (sign f x) (x mod 2 ^ (width f - 1)) /\ magnitude f x = magnitude f (x mod 2 ^ (width f - 1)).
Proof.
  intros f x [He Hs] Hx. set (w := width f - 1).
  assert (Hw : 0 <= w) by (unfold w, width; lia).
  assert (HP : 0 < 2 ^ w) by (apply pow2_pos; lia).
  split.
  - unfold with_sign, sign. fold w. rewrite (Z.div_mod x (2 ^ w)) at 1 by lia.
    assert (E : x / 2 ^ w = Z.b2z (Z.testbit x w)).
    { rewrite Z.testbit_spec' by lia. symmetry. apply Z.mod_small. split; [apply Z.div_pos; lia |].
      apply Z.div_lt_upper_bound; [lia |]. replace (2 ^ w * 2) with (2 ^ width f); [lia |].
      replace (width f) with (w + 1) by (unfold w; lia). rewrite Z.pow_add_r by lia. lia. }
    rewrite E. lia.
  - unfold magnitude, expo, frac.
    assert (E : x mod 2 ^ w / 2 ^ sw f mod 2 ^ ew f = x / 2 ^ sw f mod 2 ^ ew f).
    { apply Z.bits_inj'. intros n Hn. destruct (Z.ltb_spec n (ew f)).
      - rewrite !Z.mod_pow2_bits_low by lia. rewrite !Z.div_pow2_bits by lia.
        apply Z.mod_pow2_bits_low. unfold w, width. lia.
      - rewrite !Z.mod_pow2_bits_high by lia. reflexivity. }
    assert (F : x mod 2 ^ w mod 2 ^ sw f = x mod 2 ^ sw f).
    { apply Z.bits_inj'. intros n Hn. destruct (Z.ltb_spec n (sw f)).
      - rewrite (Z.mod_pow2_bits_low _ (sw f)) by lia. rewrite (Z.mod_pow2_bits_low x (sw f)) by lia.
        apply Z.mod_pow2_bits_low. unfold w, width. lia.
      - rewrite !Z.mod_pow2_bits_high by lia. reflexivity. }
    rewrite E, F. reflexivity.
Qed.

Lemma magnitude_nonneg : forall f x, okf f -> 0 <= magnitude f x.
Proof.
  intros f x [He Hs]. unfold magnitude, frac. assert (0 < 2 ^ sw f) by (apply pow2_pos; lia).
  pose proof (Z.mod_pos_bound x (2 ^ sw f)).
  destruct (expo f x =? 0); [lia |].
  assert (0 <= 2 ^ (expo f x - 1)) by (apply Z.pow_nonneg; lia). nia.
Qed.

(** Equal nonzero values have equal patterns. *)
Lemma units_inj : forall f a b, okf f -> 0 <= a < 2 ^ width f -> 0 <= b < 2 ^ width f ->
  units f a = units f b -> units f a <> 0 -> a = b.
Proof.
  intros f a b Hf Ha Hb E N.
  destruct (split_sign f a Hf Ha) as [SA MA]. destruct (split_sign f b Hf Hb) as [SB MB].
  unfold units in *. pose proof (magnitude_nonneg f a Hf). pose proof (magnitude_nonneg f b Hf).
  assert (S : sign f a = sign f b) by (destruct (sign f a), (sign f b); try reflexivity; lia).
  assert (M : magnitude f a = magnitude f b) by (rewrite S in E; destruct (sign f b); lia).
  rewrite SA, SB, S. f_equal. clear SA SB.
  assert (HP : 0 < 2 ^ (width f - 1)) by (apply pow2_pos; destruct Hf; unfold width; lia).
  pose proof (Z.mod_pos_bound a _ HP). pose proof (Z.mod_pos_bound b _ HP).
  destruct (Z.lt_trichotomy (a mod 2 ^ (width f - 1)) (b mod 2 ^ (width f - 1))) as [L | [L | L]]; [| exact L |].
  - pose proof (magnitude_lt f _ _ Hf (conj (proj1 H1) L) (proj2 H2)). lia.
  - pose proof (magnitude_lt f _ _ Hf (conj (proj1 H2) L) (proj2 H1)). lia.
Qed.

Lemma zero_cmp : forall f a, In f formats -> host_eq f a 0 = negb (is_nan f a) && (units f a =? 0).
Proof.
  intros f a Hf. unfold host_eq.
  assert (E : is_nan f 0 = false /\ units f 0 = 0) by (destruct Hf as [<- | [<- | [<- | []]]]; split; reflexivity).
  destruct E as [-> ->]. rewrite andb_true_r. reflexivity.
Qed.

(** * min, max *)

Lemma min_correct : forall f a b, In f formats -> 0 <= a < 2 ^ width f -> 0 <= b < 2 ^ width f ->
  op_min f a b = (min_max f true a b, nv (either_snan f a b)).
Proof.
  intros f a b Hf Ha Hb. pose proof (formats_ok f Hf) as Ok.
  unfold op_min, min_max, either_snan. rewrite !IsNaN_eq, !IsSNaN_eq, !zero_cmp, canonical_eq by assumption.
  f_equal. destruct (is_nan f a) eqn:NA, (is_nan f b) eqn:NB; try reflexivity.
  unfold below, host_lt. rewrite NA, NB. cbn [negb andb]. unfold SignBit. fold (sign f a).
  destruct (Z.eqb_spec (units f a) 0) as [ZA | ZA]; destruct (Z.eqb_spec (units f b) 0) as [ZB | ZB]; cbn [andb].
  - rewrite ZA, ZB. change (0 <? 0) with false. cbn. destruct (sign f a); reflexivity.
  - rewrite ZA. destruct (Z.ltb_spec 0 (units f b)), (Z.ltb_spec (units f b) 0), (Z.eqb_spec 0 (units f b)); cbn; try lia; try reflexivity.
  - destruct (Z.ltb_spec (units f b) (units f a)), (Z.ltb_spec (units f a) (units f b)), (Z.eqb_spec (units f a) (units f b)); cbn; try lia; try reflexivity.
  - destruct (Z.ltb_spec (units f b) (units f a)), (Z.ltb_spec (units f a) (units f b)), (Z.eqb_spec (units f a) (units f b)); cbn; try lia; try reflexivity.
    destruct (sign f a); cbn; [reflexivity |]. apply (units_inj f); assumption.
Qed.

Lemma max_cases : forall f a b pick, In f formats -> 0 <= a < 2 ^ width f -> 0 <= b < 2 ^ width f ->
  is_nan f a = false -> is_nan f b = false ->
  (units f a = 0 -> units f b = 0 -> pick = (if sign f a then b else a) ) ->
  (if (units f a =? 0) && (units f b =? 0) then pick else if units f a <? units f b then b else a)
  = (if Bool.eqb false (below f a b) then a else b).
Proof.
  intros f a b pick Hf Ha Hb NA NB HP. pose proof (formats_ok f Hf) as Ok. unfold below.
  destruct (Z.eqb_spec (units f a) 0) as [ZA | ZA]; destruct (Z.eqb_spec (units f b) 0) as [ZB | ZB]; cbn [andb].
  - rewrite (HP ZA ZB), ZA, ZB. change (0 <? 0) with false. cbn. destruct (sign f a); reflexivity.
  - rewrite ZA. destruct (Z.ltb_spec 0 (units f b)), (Z.eqb_spec 0 (units f b)); cbn; try lia; try reflexivity.
  - destruct (Z.ltb_spec (units f a) (units f b)), (Z.eqb_spec (units f a) (units f b)); cbn; try lia; try reflexivity.
  - destruct (Z.ltb_spec (units f a) (units f b)), (Z.eqb_spec (units f a) (units f b)); cbn; try lia; try reflexivity.
    destruct (sign f a); cbn; [| reflexivity]. apply (units_inj f); assumption.
Qed.

(** The two zeros. *)
Lemma zero_patterns : forall f a, okf f -> 0 <= a < 2 ^ width f -> units f a = 0 -> a = with_sign f (sign f a) 0.
Proof.
  intros f a Hf Ha U. destruct (split_sign f a Hf Ha) as [S M]. rewrite S at 1. f_equal.
  assert (HP : 0 < 2 ^ (width f - 1)) by (apply pow2_pos; destruct Hf; unfold width; lia).
  pose proof (Z.mod_pos_bound a _ HP) as R.
  destruct (Z.eq_dec (a mod 2 ^ (width f - 1)) 0) as [E | N]; [exact E |].
  pose proof (magnitude_lt f 0 (a mod 2 ^ (width f - 1)) Hf ltac:(lia) (proj2 R)) as L.
  rewrite magnitude_0 in L by assumption. unfold units in U. destruct (sign f a); lia.
Qed.

Lemma max_d_correct : forall f a b, In f formats -> 0 <= a < 2 ^ width f -> 0 <= b < 2 ^ width f ->
  op_max_d f a b = (min_max f false a b, nv (either_snan f a b)).
Proof.
  intros f a b Hf Ha Hb. pose proof (formats_ok f Hf) as Ok.
  unfold op_max_d, min_max, either_snan. rewrite !IsNaN_eq, !IsSNaN_eq, !zero_cmp, canonical_eq by assumption.
  f_equal. destruct (is_nan f a) eqn:NA, (is_nan f b) eqn:NB; try reflexivity.
  unfold host_lt. rewrite NA, NB. cbn [negb andb]. apply max_cases; try assumption. reflexivity.
Qed.
Lemma max_s_correct : forall f a b, In f formats -> 0 <= a < 2 ^ width f -> 0 <= b < 2 ^ width f ->
  op_max_s f a b = (min_max f false a b, nv (either_snan f a b)).
Proof.
  intros f a b Hf Ha Hb. pose proof (formats_ok f Hf) as Ok.
  unfold op_max_s, min_max, either_snan. rewrite !IsNaN_eq, !IsSNaN_eq, !zero_cmp, canonical_eq by assumption.
  f_equal. destruct (is_nan f a) eqn:NA, (is_nan f b) eqn:NB; try reflexivity.
  unfold host_lt. rewrite NA, NB. cbn [negb andb]. apply max_cases; try assumption.
  intros ZA ZB. pose proof (zero_patterns f a Ok Ha ZA) as PA. pose proof (zero_patterns f b Ok Hb ZB) as PB.
  unfold SignBit. fold (sign f b). destruct (sign f a) eqn:SA, (sign f b) eqn:SB; congruence.
Qed.

(** * Sign injection *)

Lemma with_sign_bits : forall f s m n, okf f -> 0 <= n -> 0 <= m < 2 ^ (width f - 1) ->
  Z.testbit (with_sign f s m) n = if n <? width f - 1 then Z.testbit m n else (n =? width f - 1) && s.
Proof.
  intros f s m n [He Hs] Hn Hm. unfold with_sign. set (w := width f - 1) in *.
  assert (Hw : 0 <= w) by (unfold w, width; lia).
  rewrite <- Z.shiftl_mul_pow2 by lia.
  assert (D : forall k, 0 <= k -> Z.testbit (Z.shiftl (Z.b2z s) w) k = (k =? w) && s).
  { intros k Hk. destruct (Z.ltb_spec k w).
    - rewrite Z.shiftl_spec_low by lia. destruct (Z.eqb_spec k w); [lia | reflexivity].
    - rewrite Z.shiftl_spec by lia. destruct (Z.eqb_spec k w) as [-> | N].
      + rewrite Z.sub_diag. destruct s; reflexivity.
      + assert (0 < k - w) by lia. destruct s; cbn [Z.b2z]; [| apply Z.bits_0].
        change 1 with (2 ^ 0). rewrite Z.pow2_bits_false by lia. reflexivity. }
  rewrite Z.add_nocarry_lxor.
  - rewrite Z.lxor_spec, D by lia. destruct (Z.ltb_spec n w).
    + destruct (Z.eqb_spec n w); [lia |]. cbn [andb]. apply xorb_false_l.
    + rewrite (inw_testbit_high w m n) by (unfold inw; lia). apply xorb_false_r.
  - apply Z.bits_inj'. intros k Hk. rewrite Z.land_spec, D, Z.bits_0 by lia.
    destruct (Z.eqb_spec k w) as [-> | N]; [| reflexivity].
    rewrite (inw_testbit_high w m w) by (unfold inw; lia). apply andb_false_r.
Qed.

Lemma sgnj_correct : forall f k a b, okf f -> 0 <= a < 2 ^ width f -> 0 <= b < 2 ^ width f ->
  op_sgnj f k a b = inject f k a b.
Proof.
  intros f k a b Hf Ha Hb. pose proof Hf as [He Hs]. unfold op_sgnj, inject.
  set (w := width f - 1). assert (Hw : 0 <= w) by (unfold w, width; lia).
  assert (HP : 0 < 2 ^ w) by (apply pow2_pos; lia).
  rewrite land_mask by lia. apply Z.bits_inj'. intros n Hn.
  rewrite with_sign_bits by (try exact Hf; try exact Hn; fold w; apply Z.mod_pos_bound; lia).
  fold w. rewrite Z.lor_spec.
  assert (P : forall j, Z.testbit (2 ^ w) j = (w =? j)) by (intro; apply Z.pow2_bits_eqb; lia).
  destruct (Z.ltb_spec n w).
  - replace (match k with Copy => _ | Negate => _ | Xor => _ end) with
      (Z.land (match k with Copy => b | Negate => wnot (width f) b | Xor => Z.lxor a b end) (2 ^ w)) by (destruct k; reflexivity).
    rewrite Z.land_spec, P. destruct (Z.eqb_spec w n); [lia |]. rewrite andb_false_r. apply orb_false_r.
  - rewrite Z.mod_pow2_bits_high by lia. cbn [orb].
    replace (match k with Copy => _ | Negate => _ | Xor => _ end) with
      (Z.land (match k with Copy => b | Negate => wnot (width f) b | Xor => Z.lxor a b end) (2 ^ w)) by (destruct k; reflexivity).
    rewrite Z.land_spec, P. rewrite (Z.eqb_sym n w). destruct (Z.eqb_spec w n) as [<- | N]; [| apply andb_false_r].
    rewrite andb_true_r. cbn [andb]. unfold sign. fold w. destruct k.
    + reflexivity.
    + rewrite wnot_testbit by (unfold w, width in *; lia).
      replace (w <? width f) with true by (symmetry; apply Z.ltb_lt; unfold w; lia). reflexivity.
    + apply Z.lxor_spec.
Qed.

Lemma with_sign_range : forall f s m, okf f -> 0 <= m < 2 ^ (width f - 1) -> 0 <= with_sign f s m < 2 ^ width f.
Proof.
  intros f s m [He Hs] Hm. unfold with_sign.
  replace (2 ^ width f) with (2 * 2 ^ (width f - 1)).
  - destruct s; cbn [Z.b2z]; lia.
  - replace (width f) with (1 + (width f - 1)) at 2 by lia. rewrite Z.pow_add_r by (unfold width; lia). reflexivity.
Qed.
Lemma inject_range : forall f k a b, okf f -> 0 <= inject f k a b < 2 ^ width f.
Proof.
  intros f k a b Hf. unfold inject. apply with_sign_range; [exact Hf |].
  apply Z.mod_pos_bound. apply pow2_pos. destruct Hf. unfold width. lia.
Qed.
Lemma min_max_range : forall f p a b, In f formats -> 0 <= a < 2 ^ width f -> 0 <= b < 2 ^ width f ->
  0 <= min_max f p a b < 2 ^ width f.
Proof.
  intros f p a b Hf Ha Hb. unfold min_max.
  assert (0 <= canonical_nan f < 2 ^ width f) by (destruct Hf as [<- | [<- | [<- | []]]]; cbn; lia).
  destruct (is_nan f a), (is_nan f b), (Bool.eqb p (below f a b)); assumption.
Qed.

(** * Classification *)

Lemma class_correct : forall f x, okf f -> 0 <= x < 2 ^ width f -> ClassifyFP f x = 2 ^ class_bit f x.
Proof.
  intros f x Hf Hx. pose proof Hf as [He Hs]. unfold ClassifyFP, class_bit.
  assert (S : negb (Z.shiftr x (width f - 1) =? 0) = sign f x).
  { rewrite Z.shiftr_div_pow2 by (unfold width; lia). unfold sign.
    assert (W : 0 <= width f - 1) by (unfold width; lia).
    destruct (Z.testbit x (width f - 1)) eqn:T; rewrite Z.testbit_spec' in T || idtac.
    - assert (E : x / 2 ^ (width f - 1) <> 0).
      { intro E. pose proof (Z.testbit_spec' x (width f - 1) W) as Q. rewrite T, E in Q. discriminate Q. }
      apply negb_true_iff, Z.eqb_neq. exact E.
    - pose proof (Z.testbit_spec' x (width f - 1) W) as Q. rewrite T in Q.
      rewrite Z.mod_small in Q.
      + rewrite <- Q. reflexivity.
      + split; [apply Z.div_pos; [lia | apply pow2_pos; lia] |]. apply Z.div_lt_upper_bound; [apply pow2_pos; lia |].
        replace (2 ^ (width f - 1) * 2) with (2 ^ width f); [lia |].
        replace (width f) with ((width f - 1) + 1) at 1 by lia. rewrite Z.pow_add_r by lia. reflexivity. }
  rewrite S. rewrite !Z.shiftl_1_l, !land_mask, Z.shiftr_div_pow2 by lia.
  fold (expo f x) (frac f x). unfold is_snan, is_nan, is_inf, is_zero, special.
  destruct (Z.eqb_spec (expo f x) 0) as [E0 | E0].
  - assert (L : 0 <> 2 ^ ew f - 1).
    { assert (2 ^ 2 <= 2 ^ ew f) by (apply Z.pow_le_mono_r; lia). lia. }
    rewrite E0. destruct (Z.eqb_spec 0 (2 ^ ew f - 1)); [lia |].
    cbn [andb negb]. destruct (frac f x =? 0), (sign f x); reflexivity.
  - destruct (Z.eqb_spec (expo f x) (2 ^ ew f - 1)) as [E1 | E1].
    + destruct (Z.eqb_spec (frac f x) 0) as [F | F]; cbn [negb andb].
      * destruct (sign f x); reflexivity.
      * assert (T : negb (Z.shiftr (frac f x) (sw f - 1) =? 0) = Z.testbit x (sw f - 1)).
        { rewrite Z.shiftr_div_pow2 by lia.
          assert (Q : Z.b2z (Z.testbit x (sw f - 1)) = frac f x / 2 ^ (sw f - 1)).
          { rewrite <- (Z.mod_pow2_bits_low x (sw f)) by lia. fold (frac f x).
            rewrite Z.testbit_spec' by lia. apply Z.mod_small. unfold frac.
            assert (0 < 2 ^ sw f) by (apply pow2_pos; lia). pose proof (Z.mod_pos_bound x (2 ^ sw f) ltac:(lia)).
            split; [apply Z.div_pos; [lia | apply pow2_pos; lia] |]. apply Z.div_lt_upper_bound; [apply pow2_pos; lia |].
            replace (2 ^ (sw f - 1) * 2) with (2 ^ sw f); [lia |].
            replace (sw f) with ((sw f - 1) + 1) at 1 by lia. rewrite Z.pow_add_r by lia. reflexivity. }
          rewrite <- Q. destruct (Z.testbit x (sw f - 1)); reflexivity. }
        rewrite T. destruct (Z.testbit x (sw f - 1)); reflexivity.
    + cbn [andb]. destruct (sign f x); reflexivity.
Qed.

(** * Significand and exponent *)

Definition sig_of (f : fmt) (x : Z) : Z := if expo f x =? 0 then frac f x else 2 ^ sw f + frac f x.
Definition exp_of (f : fmt) (x : Z) : Z := if expo f x =? 0 then 0 else expo f x - 1.
Lemma magnitude_split : forall f x, magnitude f x = sig_of f x * 2 ^ exp_of f x.
Proof. intros f x. unfold magnitude, sig_of, exp_of. destruct (expo f x =? 0); [rewrite Z.pow_0_r; ring | reflexivity]. Qed.
Lemma exp_of_nonneg : forall f x, okf f -> 0 <= exp_of f x.
Proof.
  intros f x [He Hs]. unfold exp_of, expo. pose proof (Z.mod_pos_bound (x / 2 ^ sw f) (2 ^ ew f) (pow2_pos (ew f) ltac:(lia))).
  destruct (Z.eqb_spec (x / 2 ^ sw f mod 2 ^ ew f) 0); lia.
Qed.
