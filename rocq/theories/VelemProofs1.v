(** The element functions meet their specification. *)
From Coq Require Import ZArith Bool List Lia Znumtheory.
From Verif Require Import Bits Memory IntSpec IntModel IntProofs2 VelemSpec VcfgModel VelemModel.
Import ListNotations.
Local Open Scope Z_scope.

Definition wb (b : Z) : Prop := b = 8 \/ b = 16 \/ b = 32 \/ b = 64.

Lemma land_mask w y : 0 < w -> w = 2 ^ Z.log2 w -> Z.land y (w - 1) = y mod w.
Proof.
  intros H E. pose proof (Z.ones_equiv (Z.log2 w)) as O. rewrite <- E in O.
  replace (w - 1) with (Z.ones (Z.log2 w)) by lia. rewrite Z.land_ones by apply Z.log2_nonneg. rewrite <- E. reflexivity.
Qed.
Lemma land_b b y : wb b -> Z.land y (b - 1) = y mod b.
Proof. intros [-> | [-> | [-> | ->]]]; apply land_mask; (lia || reflexivity). Qed.
Lemma land_2b b y : wb b -> Z.land y (2 * b - 1) = y mod (2 * b).
Proof. intros [-> | [-> | [-> | ->]]]; apply land_mask; (lia || reflexivity). Qed.
Lemma sgn_mod b m y : 1 <= b -> 0 < m -> (m | 2 ^ b) -> sgn b y mod m = y mod m.
Proof.
  intros Hb Hm D. pose proof (pow2_pos b ltac:(lia)).
  rewrite (Zmod_div_mod m (2 ^ b) (sgn b y)) by assumption.
  rewrite (Zmod_div_mod m (2 ^ b) y) by assumption.
  pose proof (wrap_sgn b y Hb) as E. unfold wrap in E. rewrite E. reflexivity.
Qed.
Lemma sgn_mod_b b y : wb b -> sgn b y mod b = y mod b.
Proof.
  intros H. apply sgn_mod; destruct H as [-> | [-> | [-> | ->]]]; try lia.
  - exists 32; reflexivity. - exists 4096; reflexivity. - exists (2 ^ 27); reflexivity. - exists (2 ^ 58); reflexivity.
Qed.
Lemma sgn_mod_2b b y : wb b -> sgn b y mod (2 * b) = y mod (2 * b).
Proof.
  intros H. apply sgn_mod; destruct H as [-> | [-> | [-> | ->]]]; try lia.
  - exists 16; reflexivity. - exists 2048; reflexivity. - exists (2 ^ 26); reflexivity. - exists (2 ^ 57); reflexivity.
Qed.

(** * Rounding *)
Definition rbit (rm v d : Z) : bool :=
  if rm =? 0 then (0 <? d) && Z.testbit v (d - 1)
  else if rm =? 1 then (0 <? d) && Z.testbit v (d - 1) && (negb (v mod 2 ^ (d - 1) =? 0) || Z.testbit v d)
  else if rm =? 2 then false
  else negb (v mod 2 ^ d =? 0) && negb (Z.testbit v d).

Lemma half_split v d : 1 <= d -> v mod 2 ^ d = Z.b2z (Z.testbit v (d - 1)) * 2 ^ (d - 1) + v mod 2 ^ (d - 1).
Proof.
  intros H. replace (2 ^ d) with (2 ^ (d - 1) * 2) by (rewrite Z.mul_comm, <- Z.pow_succ_r by lia; f_equal; lia).
  pose proof (pow2_pos (d - 1) ltac:(lia)). rewrite Z.rem_mul_r by lia.
  rewrite Z.testbit_spec' by lia. lia.
Qed.
Lemma testbit_quot v d : 0 <= d -> Z.testbit v d = Z.odd (v / 2 ^ d).
Proof. intros H. rewrite Z.testbit_odd, Z.shiftr_div_pow2 by lia. reflexivity. Qed.

Lemma roundoff_bit rm v d : 0 <= d -> roundoff rm v d = v / 2 ^ d + Z.b2z (rbit rm v d).
Proof.
  intros Hd. unfold roundoff, rbit. cbv zeta.
  destruct (Z.eq_dec d 0) as [-> |N].
  { rewrite Z.pow_0_r, Z.div_1_r, Z.mod_1_r.
    destruct (rm =? 0), (rm =? 1), (rm =? 2); cbn; lia. }
  assert (1 <= d) as H1 by lia. pose proof (half_split v d H1) as E.
  pose proof (pow2_pos (d - 1) ltac:(lia)) as P.
  assert (2 ^ d = 2 * 2 ^ (d - 1)) as E2 by (rewrite <- Z.pow_succ_r by lia; f_equal; lia).
  pose proof (Z.mod_pos_bound v (2 ^ (d - 1)) P) as B.
  rewrite (testbit_quot v d) by lia.
  rewrite <- (Z.negb_odd (v / 2 ^ d)).
  destruct (Z.ltb_spec 0 d); [|lia]. cbn [andb].
  destruct (Z.testbit v (d - 1)); cbn [Z.b2z] in E; rewrite E2 in *; rewrite E;
  set (q := v / (2 * 2 ^ (d - 1))); destruct (Z.odd q); cbn [negb andb orb];
  set (p := 2 ^ (d - 1)) in *; set (t := v mod p) in *; clearbody p t q;
  destruct (rm =? 0), (rm =? 1), (rm =? 2); cbn [andb orb negb];
  repeat match goal with
  | |- context [?a <=? ?b] => destruct (Z.leb_spec a b)
  | |- context [?a <? ?b] => destruct (Z.ltb_spec a b)
  | |- context [?a =? ?b] => destruct (Z.eqb_spec a b) end;
  cbn [andb orb negb Z.b2z]; lia.
Qed.

Lemma land1 x k : 0 <= k -> Z.land (Z.shiftr x k) 1 = Z.b2z (Z.testbit x k).
Proof.
  intros H. change 1 with (Z.ones 1). rewrite Z.land_ones by lia. change (2 ^ 1) with 2.
  rewrite Z.shiftr_div_pow2, Z.testbit_spec' by lia. reflexivity.
Qed.

Lemma sticky_spec w bits k : 1 <= w -> inw w bits -> 0 <= k < w ->
  sticky false w bits k = Z.b2z (negb (bits mod 2 ^ k =? 0)).
Proof.
  intros Hw Hb Hk. unfold sticky, tmax. cbv zeta.
  set (pw := Z.max 32 w). assert (w <= pw) as Hp by lia. assert (0 <= pw) by lia.
  assert (Z.land (wrap pw bits) (wnot pw (wrap pw (Z.shiftl (2 ^ w - 1) k))) = bits mod 2 ^ k) as ->.
  { rewrite (wrap_id pw bits) by (apply (inw_weaken w); [lia|assumption]).
    replace (2 ^ w - 1) with (Z.ones w) by (rewrite Z.ones_equiv; lia).
    apply Z.bits_inj'. intros i Hi. rewrite Z.land_spec, wnot_testbit, wrap_testbit by lia.
    rewrite Z.shiftl_spec by lia.
    destruct (Z.ltb_spec i k).
    - rewrite Z.mod_pow2_bits_low by lia. rewrite (Z.testbit_neg_r _ (i - k)) by lia.
      destruct (Z.ltb_spec i pw); [|lia]. cbn. apply andb_true_r.
    - rewrite Z.mod_pow2_bits_high by lia. destruct (Z.ltb_spec i w).
      + destruct (Z.ltb_spec i pw); [|lia]. rewrite Z.ones_spec_low by lia. cbn. apply andb_false_r.
      + rewrite (inw_testbit_high w bits i) by (assumption || lia). reflexivity. }
  destruct (_ =? 0); reflexivity.
Qed.

(** GetRoundingBit on the low bits (unsigned) of the value. *)
Lemma grb_spec w rm u v d : 1 <= w -> inw w u -> 0 <= d < w -> 0 <= rm < 4 ->
  (forall i, 0 <= i <= d -> Z.testbit u i = Z.testbit v i) ->
  get_rounding_bit false w rm u (d + 1) = Z.b2z (rbit rm v d).
Proof.
  intros Hw Hu Hd Hrm Hb. unfold get_rounding_bit, rbit. cbv zeta.
  assert (forall k, 0 <= k <= d + 1 -> u mod 2 ^ k = v mod 2 ^ k) as M.
  { intros k Hk. apply Z.bits_inj'. intros i Hi. destruct (Z.ltb_spec i k).
    - rewrite !Z.mod_pow2_bits_low by lia. apply Hb. lia.
    - rewrite !Z.mod_pow2_bits_high by lia. reflexivity. }
  destruct (Z.eqb_spec rm 0).
  { destruct (Z.ltb_spec (d + 1) 2), (Z.ltb_spec 0 d); try (exfalso; lia); [reflexivity|].
    rewrite land1 by lia. cbn [andb]. replace (d + 1 - 2) with (d - 1) by lia. rewrite Hb by lia. reflexivity. }
  destruct (Z.eqb_spec rm 1).
  { destruct (Z.eqb_spec (d + 1) 0); [lia|].
    destruct (Z.ltb_spec (d + 1) 2), (Z.ltb_spec 0 d); try (exfalso; lia); [reflexivity|].
    rewrite !land1 by lia. cbn [andb]. replace (d + 1 - 2) with (d - 1) by lia. replace (d + 1 - 1) with d by lia.
    rewrite !Hb by lia.
    destruct (Z.ltb_spec (d + 1) 3).
    - assert (d = 1) as -> by lia. change (2 ^ (1 - 1)) with 1. rewrite Z.mod_1_r. cbn [Z.eqb negb orb].
      destruct (Z.testbit v (1 - 1)), (Z.testbit v 1); reflexivity.
    - rewrite sticky_spec by (assumption || lia). rewrite M by lia.
      destruct (Z.testbit v (d - 1)), (v mod 2 ^ (d - 1) =? 0), (Z.testbit v d); reflexivity. }
  destruct (Z.eqb_spec rm 2); [reflexivity|]. destruct (Z.eqb_spec rm 3); [|lia].
  rewrite land1 by lia. replace (d + 1 - 1) with d by lia. rewrite Hb by lia.
  destruct (Z.ltb_spec (d + 1) 2).
  - assert (d = 0) as -> by lia. rewrite Z.pow_0_r, Z.mod_1_r. destruct (Z.testbit v 0); reflexivity.
  - rewrite sticky_spec by (assumption || lia). rewrite M by lia.
    destruct (Z.testbit v d), (v mod 2 ^ d =? 0); reflexivity.
Qed.

(** The masked rounding bits of VssrHelper / VnclipHelper. *)
Lemma mask_bits w v d i : 1 <= w -> 0 <= d < w - 1 -> 0 <= i <= d ->
  Z.testbit (Z.land (wrap w v) (wnot w (wrap w (Z.shiftl (2 ^ w - 1) (d + 1))))) i = Z.testbit v i.
Proof.
  intros Hw Hd Hi. rewrite Z.land_spec, wnot_testbit, !wrap_testbit, Z.shiftl_spec by lia.
  rewrite (Z.testbit_neg_r _ (i - (d + 1))) by lia. destruct (Z.ltb_spec i w); [|lia].
  rewrite andb_false_r. cbn. apply andb_true_r.
Qed.

Lemma vssr_spec sg w rm vs2 vs1 : 0 < w -> w = 2 ^ Z.log2 w -> 2 <= w -> 0 <= rm < 4 ->
  vssr_helper sg w rm vs2 vs1 = cast sg w (roundoff rm vs2 (vs1 mod w)).
Proof.
  intros Hw Hp H2 Hrm. unfold vssr_helper. cbv zeta. rewrite land_mask by assumption.
  pose proof (Z.mod_pos_bound vs1 w Hw) as B. set (d := vs1 mod w) in *. clearbody d.
  rewrite roundoff_bit by lia. rewrite Z.shiftr_div_pow2 by lia. f_equal. f_equal.
  apply grb_spec; try lia.
  - destruct (d <? w - 1); [apply inw_land_l; [lia|]|]; apply wrap_range; lia.
  - intros i Hi. destruct (Z.ltb_spec d (w - 1)).
    + apply mask_bits; lia.
    + rewrite wrap_testbit by lia. destruct (Z.ltb_spec i w); [reflexivity|lia].
Qed.

Lemma roundoff_le rm v d k : 0 <= d -> v <= k * 2 ^ d -> roundoff rm v d <= k.
Proof.
  intros Hd H. unfold roundoff. cbv zeta. pose proof (pow2_pos d Hd) as P.
  pose proof (Z.div_mod v (2 ^ d) ltac:(lia)) as E. pose proof (Z.mod_pos_bound v (2 ^ d) P) as B.
  set (q := v / 2 ^ d) in *. set (r := v mod 2 ^ d) in *. set (p := 2 ^ d) in *.
  assert (q <= k) by nia. assert (q = k -> r = 0) by nia. clearbody q r p.
  assert (r <> 0 -> q + 1 <= k) by lia.
  destruct (rm =? 0); [destruct (Z.leb_spec p (2 * r)); lia|].
  destruct (rm =? 1).
  - destruct (Z.ltb_spec p (2 * r)); cbn [orb]; [lia|]. destruct (Z.eqb_spec (2 * r) p); cbn [andb]; [|lia].
    destruct (Z.odd q); lia.
  - destruct (rm =? 2); [lia|]. destruct (Z.eqb_spec r 0); cbn [negb andb]; [lia|]. destruct (Z.even q); lia.
Qed.
Lemma roundoff_ge rm v d k : 0 <= d -> k * 2 ^ d <= v -> k <= roundoff rm v d.
Proof.
  intros Hd H. rewrite roundoff_bit by lia. pose proof (pow2_pos d Hd).
  assert (k <= v / 2 ^ d) by (apply Z.div_le_lower_bound; lia). destruct (rbit rm v d); cbn; lia.
Qed.
(** Rounding never leaves the range of the value shifted. *)
Lemma roundoff_range rm v d w : 0 <= d -> 1 <= w -> - 2 ^ (w - 1) <= v < 2 ^ (w - 1) ->
  - 2 ^ (w - 1) <= roundoff rm v d < 2 ^ (w - 1).
Proof.
  intros Hd Hw H. pose proof (pow2_pos d Hd). pose proof (pow2_pos (w - 1) ltac:(lia)). split.
  - apply roundoff_ge; [lia|]. nia.
  - destruct (Z.eq_dec d 0) as [-> |N].
    + unfold roundoff. rewrite Z.pow_0_r, Z.div_1_r, Z.mod_1_r. cbn.
      destruct (rm =? 0), (rm =? 1), (rm =? 2); lia.
    + assert (2 <= 2 ^ d). { change 2 with (2 ^ 1) at 1. apply Z.pow_le_mono_r; lia. }
      destruct (Z.eq_dec w 1) as [-> |].
      * change (2 ^ (1 - 1)) with 1 in *. assert (roundoff rm v d <= 0); [apply roundoff_le; lia|lia].
      * assert (roundoff rm v d <= 2 ^ (w - 1) - 1); [|lia]. apply roundoff_le; [lia|].
        assert (2 <= 2 ^ (w - 1)). { change 2 with (2 ^ 1) at 1. apply Z.pow_le_mono_r; lia. } nia.
Qed.
Lemma roundoff_rangeu rm v d w : 0 <= d -> 1 <= w -> inw w v -> inw w (roundoff rm v d).
Proof.
  intros Hd Hw [H1 H2]. pose proof (pow2_pos d Hd). pose proof (pow2_pos w ltac:(lia)). split.
  - apply roundoff_ge; [lia|]. lia.
  - destruct (Z.eq_dec d 0) as [-> |N].
    + unfold roundoff. rewrite Z.pow_0_r, Z.div_1_r, Z.mod_1_r. cbn.
      destruct (rm =? 0), (rm =? 1), (rm =? 2); lia.
    + assert (2 <= 2 ^ d). { change 2 with (2 ^ 1) at 1. apply Z.pow_le_mono_r; lia. }
      assert (2 <= 2 ^ w). { change 2 with (2 ^ 1) at 1. apply Z.pow_le_mono_r; lia. }
      assert (roundoff rm v d <= 2 ^ w - 1); [|lia]. apply roundoff_le; [lia|]. nia.
Qed.

Lemma vnclip_spec (sg : bool) b rm vs2 vs1 : wb b -> 0 <= rm < 4 ->
  (if sg then - 2 ^ (2 * b - 1) <= vs2 < 2 ^ (2 * b - 1) else inw (2 * b) vs2) ->
  vnclip_helper sg b (2 * b) rm vs2 vs1 = clamp (tmin sg b) (tmax sg b) (roundoff rm vs2 (vs1 mod (2 * b))).
Proof.
  intros Hb Hrm Hr. unfold vnclip_helper. cbv zeta. rewrite land_2b by assumption.
  assert (16 <= 2 * b) as H16 by (destruct Hb as [-> | [-> | [-> | ->]]]; lia).
  pose proof (Z.mod_pos_bound vs1 (2 * b) ltac:(lia)) as B. set (d := vs1 mod (2 * b)) in *. clearbody d.
  set (w := 2 * b) in *.
  assert (cast sg w (Z.shiftr vs2 d + get_rounding_bit false w rm
     (Z.land (wrap w vs2) (if d <? w - 1 then wnot w (wrap w (Z.shiftl (2 ^ w - 1) (d + 1))) else wrap w vs2)) (d + 1))
    = roundoff rm vs2 d) as ->.
  { rewrite (grb_spec w rm _ vs2 d); try lia.
    - rewrite Z.shiftr_div_pow2, <- roundoff_bit by lia. destruct sg; cbn [cast].
      + apply sgn_id; [lia|]. apply roundoff_range; lia.
      + apply wrap_id, roundoff_rangeu; (assumption || lia).
    - apply inw_land_l; [lia|]. apply wrap_range; lia.
    - intros i Hi. destruct (Z.ltb_spec d (w - 1)); [apply mask_bits; lia|].
      rewrite Z.land_spec, !wrap_testbit by lia. destruct (Z.ltb_spec i w); [|lia]. apply andb_diag. }
  unfold clamp.
  assert (tmin sg b <= tmax sg b).
  { unfold tmin, tmax. pose proof (pow2_pos b ltac:(lia)). pose proof (pow2_pos (b - 1) ltac:(lia)). destruct sg; lia. }
  destruct (Z.ltb_spec (tmax sg b) (roundoff rm vs2 d)), (Z.ltb_spec (roundoff rm vs2 d) (tmin sg b)); try lia; reflexivity.
Qed.

Lemma avg_bit sg w rm v : 32 <= w -> 0 <= rm < 4 -> (sg = false -> inw w v) ->
  get_rounding_bit sg w rm v 2 = Z.b2z (rbit rm v 1).
Proof.
  intros Hw Hrm Hv. destruct sg; [|apply (grb_spec w rm v v 1); (lia || auto)].
  unfold get_rounding_bit, rbit. cbv zeta. change (2 <? 2) with false. change (2 <? 3) with true. change (2 =? 0) with false.
  cbv iota. change (2 - 2) with 0. change (2 - 1) with 1. change (0 <? 1) with true. change (1 - 1) with 0.
  rewrite !land1 by lia. rewrite Z.pow_0_r, Z.mod_1_r. cbn [Z.eqb negb orb andb].
  destruct (Z.eqb_spec rm 0); [reflexivity|].
  destruct (Z.eqb_spec rm 1); [destruct (Z.testbit v 0), (Z.testbit v 1); reflexivity|].
  destruct (Z.eqb_spec rm 2); [reflexivity|]. destruct (Z.eqb_spec rm 3); [|lia].
  assert (sticky true w v 1 = Z.b2z (negb (v mod 2 ^ 1 =? 0))) as ->.
  { unfold sticky, tmax. cbv zeta. replace (Z.max 32 w) with w by lia.
    assert (Z.land (wrap w v) (wnot w (wrap w (Z.shiftl (2 ^ (w - 1) - 1) 1))) = v mod 2 ^ 1) as ->.
    { replace (2 ^ (w - 1) - 1) with (Z.ones (w - 1)) by (rewrite Z.ones_equiv; lia).
      apply Z.bits_inj'. intros i Hi. rewrite Z.land_spec, wnot_testbit, !wrap_testbit, Z.shiftl_spec by lia.
      destruct (Z.ltb_spec i 1).
      - assert (i = 0) as -> by lia. rewrite Z.mod_pow2_bits_low by lia. rewrite (Z.testbit_neg_r _ (0 - 1)) by lia.
        destruct (Z.ltb_spec 0 w); [|lia]. cbn. apply andb_true_r.
      - rewrite Z.mod_pow2_bits_high by lia. destruct (Z.ltb_spec i w); [|reflexivity].
        rewrite Z.ones_spec_low by lia. cbn. apply andb_false_r. }
    destruct (_ =? 0); reflexivity. }
  destruct (Z.testbit v 1), (v mod 2 ^ 1 =? 0); reflexivity.
Qed.
Lemma round_off_spec sg w rm v : 32 <= w -> 0 <= rm < 4 -> (sg = false -> inw w v) ->
  round_off sg w rm v 1 = roundoff rm v 1.
Proof.
  intros Hw Hrm Hv. unfold round_off. change (1 + 1) with 2. rewrite avg_bit by assumption.
  rewrite roundoff_bit, Z.shiftr_div_pow2 by lia. reflexivity.
Qed.
(** Rounding a sum that was first reduced modulo a wider power of two. *)
Lemma roundoff_wrap rm v b w : 1 <= b -> b < w -> wrap b (roundoff rm (wrap w v) 1) = wrap b (roundoff rm v 1).
Proof.
  intros Hb Hw. rewrite !roundoff_bit by lia.
  assert (rbit rm (wrap w v) 1 = rbit rm v 1) as ->.
  { assert (forall i, 0 <= i <= 1 -> i < w -> Z.testbit (wrap w v) i = Z.testbit v i) as T.
    { intros i Hi Hiw. rewrite wrap_testbit by lia. destruct (Z.ltb_spec i w); [reflexivity|lia]. }
    unfold rbit. change (1 - 1) with 0. rewrite !Z.pow_0_r, !Z.mod_1_r. cbn [Z.eqb negb orb].
    assert (wrap w v mod 2 ^ 1 = v mod 2 ^ 1) as ->. { apply wrap_wrap_le. lia. }
    rewrite (T 0) by lia.
    rewrite (T 1) by lia. reflexivity. }
  rewrite <- (wrap_add_l b (wrap w v / 2 ^ 1)), <- (wrap_add_l b (v / 2 ^ 1)). do 2 f_equal.
  apply wrap_eq_bits; [lia|]. intros i Hi. rewrite !Z.div_pow2_bits, wrap_testbit by lia.
  destruct (Z.ltb_spec (i + 1) w); [reflexivity|lia].
Qed.
