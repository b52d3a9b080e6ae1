(** Element results that need no arithmetic: min, max, sign injection, class, conversions. *)
From Coq Require Import ZArith Bool List Lia.
From Verif Require Import Bits IeeeSpec FpSpec FarithSpec IntModel FpModel FarithModel FpProofs FpCvt FpWiden FarithProofs FarithExec VelemModel HalfProofs HalfConv HalfArith FvSpec FvModel FvWide FvElem.
Import ListNotations.
Local Open Scope Z_scope.

Definition plain (o : fvop) : bool := match o with Vfmin | Vfmax | Vfsgnj _ | Vfclass => true | _ => false end.

Lemma minmax_elem : forall f (mn : bool) x y, In f formats -> f = single \/ f = double -> 0 <= x < 2 ^ width f -> 0 <= y < 2 ^ width f ->
  MaxMinHelper f (if mn then min_op f else max_op f) x y = (min_max f mn x y, nv (either_snan f x y)).
Proof.
  intros f mn x y Hin Hf Hx Hy. pose proof (formats_ok f Hin) as Ok. unfold MaxMinHelper.
  rewrite !IsNaN_eq, !IsSNaN_eq, !zero_cmp, canonical_eq by assumption.
  assert (FL : flag (is_snan f y || is_snan f x) = nv (either_snan f x y)) by (unfold either_snan; rewrite orb_comm; reflexivity). rewrite FL.
  destruct (is_nan f x) eqn:NX, (is_nan f y) eqn:NY; cbn [andb negb]; try (unfold min_max; rewrite NX, NY; reflexivity).
  assert (NS : nv (either_snan f x y) = 0) by (unfold either_snan, is_snan; rewrite NX, NY; reflexivity). rewrite NS.
  destruct ((units f x =? 0) && (units f y =? 0)) eqn:ZZ.
  - f_equal. apply andb_prop in ZZ. destruct ZZ as [ZX ZY]. apply Z.eqb_eq in ZX, ZY.
    pose proof (zero_patterns f x Ok Hx ZX) as PX. pose proof (zero_patterns f y Ok Hy ZY) as PY. rewrite PX, PY.
    unfold SignBit. destruct (sign f x), (sign f y), Hf as [-> | ->], mn; vm_compute; reflexivity.
  - destruct mn.
    + pose proof (min_correct f x y Hin Hx Hy) as M. unfold op_min in M. rewrite !IsNaN_eq, !zero_cmp, NX, NY in M by assumption. cbn [negb andb] in M. rewrite ZZ in M.
      injection M as M _. rewrite <- M. reflexivity.
    + pose proof (max_d_correct f x y Hin Hx Hy) as M. unfold op_max_d in M. rewrite !IsNaN_eq, !zero_cmp, NX, NY in M by assumption. cbn [negb andb] in M. rewrite ZZ in M.
      injection M as M _. rewrite <- M. reflexivity.
Qed.

Lemma sgnj_elem : forall f k x y, f = single \/ f = double -> 0 <= x < 2 ^ width f -> 0 <= y < 2 ^ width f -> sgnj (width f) k x y = inject f k x y.
Proof.
  intros f k x y Hf Hx Hy. rewrite <- sgnj_correct by (try apply sd_ok2; assumption). unfold sgnj, op_sgnj. destruct k; try reflexivity.
  rewrite (Z.lxor_comm y x). destruct (width f =? 64); [| reflexivity]. apply Z.bits_inj'. intros n Hn.
  assert (W : 0 <= width f - 1) by (destruct Hf as [-> | ->]; cbn; lia).
  replace (2 ^ (width f - 1) - 1) with (Z.ones (width f - 1)) by (rewrite Z.ones_equiv; lia).
  rewrite Z.lxor_spec, Z.lor_spec, !Z.land_spec, Z.pow2_bits_eqb by exact W. destruct (Z.eqb_spec (width f - 1) n) as [<- | N].
  - rewrite Z.ones_spec_high by lia. rewrite andb_false_r. destruct (Z.testbit (Z.lxor x y) (width f - 1)); reflexivity.
  - rewrite !andb_false_r, orb_false_r, xorb_false_r. reflexivity.
Qed.

Lemma plain_elem : forall H wide o sew frm x y z wd w2 w1, plain o = true -> In sew (fsews o) -> fwidths o sew = (wd, w2, w1) ->
  0 <= x < 2 ^ (8 * w2) -> (has_f1 o = true -> 0 <= y < 2 ^ (8 * w1)) ->
  exists r fl, elem_fn H wide o (8 * sew) frm true x y z = Some (r, fl) /\ fvrel o (8 * sew) frm true x y z (wrap (8 * wd) r) fl.
Proof.
  intros H wide o sew frm x y z wd w2 w1 Po Hs Hw Hx Hy.
  assert (SEW : sew = 4 \/ sew = 8) by (destruct o; try discriminate Po; cbn in Hs; clear - Hs; lia).
  set (f := ffmt (8 * sew)). assert (Ff : f = single \/ f = double) by apply ffmt_cases.
  assert (Wf : 8 * sew = width f) by (unfold f; destruct SEW as [-> | ->]; reflexivity).
  assert (Hin : In f formats) by (destruct Ff as [-> | ->]; cbn; auto). pose proof (formats_ok f Hin) as Ok.
  assert (E : wd = sew /\ w2 = sew /\ w1 = sew) by (destruct o; try discriminate Po; cbn [fwidths] in Hw; injection Hw as <- <- <-; repeat split).
  destruct E as (-> & -> & ->). rewrite Wf in *.
  assert (ID : forall v, 0 <= v < 2 ^ width f -> wrap (width f) v = v) by (intros v Hv; unfold wrap; apply Z.mod_small; exact Hv).
  assert (CT : ctype (width f) = f) by (rewrite ctype_ffmt, <- Wf; reflexivity).
  assert (FT : ffmt (width f) = f) by (rewrite <- Wf; reflexivity).
  destruct o; try discriminate Po; cbn [has_f1] in Hy; try specialize (Hy eq_refl); cbn [elem_fn fvrel fvres]; rewrite ?CT, ?FT.
  - rewrite (minmax_elem f true x y Hin Ff Hx Hy). eexists _, _. split; [reflexivity |]. rewrite ID by (apply min_max_range; assumption). reflexivity.
  - rewrite (minmax_elem f false x y Hin Ff Hx Hy). eexists _, _. split; [reflexivity |]. rewrite ID by (apply min_max_range; assumption). reflexivity.
  - rewrite (sgnj_elem f k x y Ff Hx Hy). eexists _, _. split; [reflexivity |]. rewrite ID by (apply inject_range; assumption). reflexivity.
  - rewrite class_correct by assumption. eexists _, _. split; [reflexivity |]. rewrite ID; [reflexivity |].
    assert (C : 0 <= class_bit f x <= 9) by (unfold class_bit; repeat match goal with |- context [if ?c then _ else _] => destruct c end; lia).
    split; [apply Z.pow_nonneg; lia |]. apply Z.pow_lt_mono_r; [lia | destruct Ff as [-> | ->]; cbn; lia | destruct Ff as [-> | ->]; cbn; lia].
Qed.

(** ** From integers *)
Definition from_int (o : fvop) : bool := match o with VfcvtFX _ | VfwcvtFX _ | VfncvtFX _ => true | _ => false end.
Lemma from_int_elem : forall H wide o sew frm x y z wd w2 w1, host_ok H -> from_int o = true -> In sew (fsews o) -> fwidths o sew = (wd, w2, w1) -> 0 <= frm <= 3 ->
  exists r fl, elem_fn H wide o (8 * sew) frm true x y z = Some (r, fl) /\ fvrel o (8 * sew) frm true x y z (wrap (8 * wd) r) fl.
Proof.
  intros H wide o sew frm x y z wd w2 w1 HO Fo Hs Hw Hf.
  assert (K : forall g sg w v, g = single \/ g = double -> w = 16 \/ w = 32 \/ w = 64 -> width g = 8 * wd -> v = int_arg sg w x ->
    h_int H g (host_rm frm) v = ieee_of_int g frm v /\ wrap (8 * wd) (fst (ieee_of_int g frm v)) = fst (ieee_of_int g frm v)).
  { intros g sg w v Hg Hw' Wg ->. rewrite host_rm_id by exact Hf. assert (Ok : okf g) by (apply sd_ok2; exact Hg).
    assert (R0 : 0 <= 0 < 2 ^ width g) by (split; [apply Z.le_refl | apply pow2_pos; destruct Ok; unfold width; lia]).
    destruct (HO g frm 0 0 0 Hg Hf R0 R0 R0) as (_ & _ & _ & _ & _ & _ & _ & C).
    assert (R : - 2 ^ 63 <= int_arg sg w x < 2 ^ 64).
    { assert (B : 2 ^ w <= 2 ^ 64 /\ 2 ^ (w - 1) <= 2 ^ 63) by (destruct Hw' as [-> | [-> | ->]]; split; vm_compute; congruence).
      assert (P : 1 <= w) by (clear - Hw'; lia). unfold int_arg. destruct sg.
      - pose proof (sgn_range w x P) as S. assert (2 ^ 63 < 2 ^ 64) by reflexivity. clear - S B H0; lia.
      - pose proof (wrap_range w x ltac:(lia)) as S. unfold inw in S. assert (0 < 2 ^ 63) by reflexivity. lia. }
    pose proof (int_number g frm (int_arg sg w x) Ok) as N. split; [apply (like_number g); [apply C; exact R | exact N] |].
    rewrite <- Wg. unfold wrap. apply Z.mod_small. apply N. }
  destruct o; try discriminate Fo; cbn [fwidths] in Hw; injection Hw as <- <- <-; cbn [fsews In] in Hs; cbn [elem_fn fvrel fvres]; rewrite !ctype_ffmt.
  - destruct (K (ffmt (8 * sew)) sg (8 * sew) _ (ffmt_cases _) ltac:(clear - Hs; lia) ltac:(destruct Hs as [<- | [<- | []]]; reflexivity) eq_refl) as [K1 K2].
    rewrite K1. eexists _, _. split; [apply f_equal, surjective_pairing |]. rewrite K2. symmetry. apply surjective_pairing.
  - destruct (K (ffmt (2 * (8 * sew))) sg (8 * sew) _ (ffmt_cases _) ltac:(clear - Hs; lia) ltac:(destruct Hs as [<- | [<- | []]]; reflexivity) eq_refl) as [K1 K2].
    rewrite K1. eexists _, _. split; [apply f_equal, surjective_pairing |]. rewrite K2. symmetry. apply surjective_pairing.
  - destruct (K (ffmt (8 * sew)) sg (2 * (8 * sew)) _ (ffmt_cases _) ltac:(clear - Hs; lia) ltac:(destruct Hs as [<- | []]; reflexivity) eq_refl) as [K1 K2].
    rewrite K1. eexists _, _. split; [apply f_equal, surjective_pairing |]. rewrite K2. symmetry. apply surjective_pairing.
Qed.

(** ** To integers *)
Definition to_integer (o : fvop) : bool := match o with VfcvtXF _ _ | VfwcvtXF _ _ | VfncvtXF _ _ => true | _ => false end.
Definition combos : list (fmt * Z) := [(single, 16); (single, 32); (single, 64); (double, 32); (double, 64)].

(** The limits as the format has them. *)
Lemma limits : forall f w sg, In (f, w) combos ->
  let kMax := fst (ieee_of_int f 0 (tmax sg w)) in let kMin := fst (ieee_of_int f 0 (tmin sg w)) in
  is_nan f kMax = false /\ is_nan f kMin = false /\ units f kMin = tmin sg w * 2 ^ quantum f /\
  (units f kMax = tmax sg w * 2 ^ quantum f \/ units f kMax = (tmax sg w + 1) * 2 ^ quantum f /\ sw f < w) /\
  units f kMax < (2 ^ sw f) * 2 ^ (2 ^ ew f - 2).
Proof.
  intros f w sg Hc. cbn [In combos] in Hc.
  destruct Hc as [E | [E | [E | [E | [E | []]]]]]; injection E as <- <-; destruct sg; cbv zeta;
    (split; [vm_compute; reflexivity |]); (split; [vm_compute; reflexivity |]); (split; [apply Z.eqb_eq; vm_compute; reflexivity |]);
    (split; [first [left; apply Z.eqb_eq; vm_compute; reflexivity | right; split; [apply Z.eqb_eq; vm_compute; reflexivity | vm_compute; reflexivity]] | apply Z.ltb_lt; vm_compute; reflexivity]).
Qed.

Lemma cvt_elem : forall f w sg rm x, In (f, w) combos -> 0 <= rm <= 4 -> exact_int f sg w x ->
  exists v fl, CvtHelper f sg w x = Some (v, fl) /\ to_int f sg w rm x v fl.
Proof.
  intros f w sg rm x Hc Hr Ex.
  assert (Ff : f = single \/ f = double) by (cbn [In combos] in Hc; destruct Hc as [E | [E | [E | [E | [E | []]]]]]; injection E as <- <-; auto).
  assert (Hin : In f formats) by (destruct Ff as [-> | ->]; cbn; auto). pose proof (formats_ok f Hin) as Ok.
  assert (WP : 0 < w) by (cbn [In combos] in Hc; destruct Hc as [E | [E | [E | [E | [E | []]]]]]; injection E as <- <-; lia).
  destruct (limits f w sg Hc) as (L1 & L2 & L3 & L4 & L5). unfold CvtHelper. set (kMax := fst (ieee_of_int f 0 (tmax sg w))) in *. set (kMin := fst (ieee_of_int f 0 (tmin sg w))) in *.
  change (int_max sg w) with (tmax sg w) in *. assert (MX : int_max sg w = tmax sg w) by reflexivity. assert (MN : int_min sg w = tmin sg w) by reflexivity.
  unfold to_int. rewrite MX, MN. rewrite IsNaN_eq by exact Ok. destruct (is_nan f x) eqn:N.
  { eexists _, _. split; [reflexivity |]. split; reflexivity. }
  unfold host_lt. rewrite L1, L2, N. cbn [negb andb].
  assert (QP : 0 < 2 ^ quantum f) by (apply pow2_pos; pose proof (quantum_pos f Ok); lia).
  assert (MINLE : tmin sg w <= 0 <= tmax sg w) by (clear - WP; unfold tmin, tmax; pose proof (pow2_pos (w - 1)); pose proof (pow2_pos w); destruct sg; lia).
  set (m1 := neg f (Z.shiftl (bias f) (sw f))). assert (M1 : is_nan f m1 = false /\ units f m1 = - 2 ^ quantum f) by (unfold m1; destruct Ff as [-> | ->]; vm_compute; split; reflexivity).
  destruct M1 as [M1 M2]. rewrite M1, M2. cbn [negb andb].
  destruct (is_inf f x) eqn:I.
  - (* infinite *)
    assert (MI : magnitude f x = 2 ^ sw f * 2 ^ (2 ^ ew f - 2)).
    { unfold is_inf, special in I. apply andb_prop in I. destruct I as [I1 I2]. apply Z.eqb_eq in I1, I2. unfold magnitude. rewrite I1, I2.
      replace (2 ^ ew f - 1 =? 0) with false by (destruct Ff as [-> | ->]; reflexivity). rewrite Z.add_0_r. f_equal. f_equal. lia. }
    assert (BIG : 2 ^ quantum f * 2 ^ 64 < magnitude f x) by (rewrite MI; apply Z.ltb_lt; destruct Ff as [-> | ->]; vm_compute; reflexivity).
    assert (TL : - 2 ^ 64 < tmin sg w) by (cbn [In combos] in Hc; destruct Hc as [E | [E | [E | [E | [E | []]]]]]; injection E as <- <-; destruct sg; vm_compute; reflexivity).
    assert (P64 : 0 < 2 ^ 64) by reflexivity.
    destruct (sign f x) eqn:S.
    + assert (UX : units f x = - magnitude f x) by (unfold units; rewrite S; reflexivity). rewrite UX.
      assert (KP : 0 <= units f kMax) by (destruct L4 as [-> | [-> _]]; clear - MINLE QP; nia).
      replace (units f kMax <? - magnitude f x) with false by (symmetry; apply Z.ltb_ge; clear - KP BIG QP P64; nia).
      replace (- magnitude f x <? units f kMin) with true by (symmetry; apply Z.ltb_lt; rewrite L3; clear - TL BIG QP; nia).
      replace (- 2 ^ quantum f <? - magnitude f x) with false by (symmetry; apply Z.ltb_ge; clear - BIG QP P64; nia).
      rewrite andb_false_r. eexists _, _. split; [reflexivity |]. split; reflexivity.
    + assert (UX : units f x = magnitude f x) by (unfold units; rewrite S; reflexivity). rewrite UX.
      replace (units f kMax <? magnitude f x) with true by (symmetry; apply Z.ltb_lt; rewrite MI; exact L5).
      eexists _, _. split; [reflexivity |]. split; reflexivity.
  - assert (F : is_finite f x = true) by (unfold is_finite; rewrite (special_of f x N I); reflexivity).
    destruct Ex as [Ex | (n & [_ U] & Hn)]; [rewrite F in Ex; discriminate Ex |]. rewrite MX in Hn. rewrite U, L3.
    assert (RN : rounds rm (n * 2 ^ quantum f) (2 ^ quantum f) n).
    { assert (rm = 0 \/ rm = 1 \/ rm = 2 \/ rm = 3 \/ rm = 4) as [-> | [-> | [-> | [-> | ->]]]] by (clear - Hr; lia); cbn [rounds]; rewrite ?Z.sub_diag; cbn [Z.abs Z.mul]; clear - QP;
        try (destruct (0 <=? n * 2 ^ quantum f)); try split; try lia; try nia. }
    assert (CMP : (units f kMax <? n * 2 ^ quantum f) = (tmax sg w <? n)).
    { destruct L4 as [-> | [-> SW]]; clear - QP Hn SW || clear - QP Hn; match goal with |- (?a <? ?b) = (?c <? ?d) => destruct (Z.ltb_spec a b), (Z.ltb_spec c d) end; try reflexivity; nia. }
    rewrite CMP. destruct (Z.ltb_spec (tmax sg w) n) as [G | G].
    { eexists _, _. split; [reflexivity |]. exists n. split; [exact RN |]. replace (n <? tmin sg w) with false by (symmetry; apply Z.ltb_ge; clear - MINLE G; lia).
      replace (tmax sg w <? n) with true by (symmetry; apply Z.ltb_lt; exact G). split; reflexivity. }
    replace (n * 2 ^ quantum f <? tmin sg w * 2 ^ quantum f) with (n <? tmin sg w) by (clear - QP; destruct (Z.ltb_spec n (tmin sg w)), (Z.ltb_spec (n * 2 ^ quantum f) (tmin sg w * 2 ^ quantum f)); try reflexivity; nia).
    destruct (Z.ltb_spec n (tmin sg w)) as [B | B].
    { replace (- 2 ^ quantum f <? n * 2 ^ quantum f) with false by (symmetry; apply Z.ltb_ge; clear - QP B MINLE; nia). rewrite andb_false_r.
      eexists _, _. split; [reflexivity |]. exists n. split; [exact RN |]. replace (n <? tmin sg w) with true by (symmetry; apply Z.ltb_lt; exact B). split; reflexivity. }
    unfold static_cast_int. rewrite F, U, Z.quot_mul by (clear - QP; lia).
    replace (tmin sg w <=? n) with true by (symmetry; apply Z.leb_le; exact B). replace (n <=? tmax sg w) with true by (symmetry; apply Z.leb_le; exact G). cbn [andb obind].
    eexists _, _. split; [reflexivity |]. exists n. split; [exact RN |]. replace (n <? tmin sg w) with false by (symmetry; apply Z.ltb_ge; exact B).
    replace (tmax sg w <? n) with false by (symmetry; apply Z.ltb_ge; exact G). rewrite Z.eqb_refl. split; reflexivity.
Qed.

Lemma to_integer_elem : forall H wide o sew frm x y z wd w2 w1, to_integer o = true -> In sew (fsews o) -> fwidths o sew = (wd, w2, w1) -> 0 <= frm <= 4 ->
  fv_safe o (8 * sew) x -> exists r fl, elem_fn H wide o (8 * sew) frm true x y z = Some (r, fl) /\ fvrel o (8 * sew) frm true x y z (wrap (8 * wd) r) fl.
Proof.
  intros H wide o sew frm x y z wd w2 w1 To Hs Hw Hf Safe.
  assert (K : forall f w sg rm, In (f, w) combos -> 0 <= rm <= 4 -> exact_int f sg w x -> w = 8 * wd ->
    exists r fl, CvtHelper f sg w x = Some (r, fl) /\ exists v, to_int f sg w rm x v fl /\ wrap (8 * wd) r = wrap w v).
  { intros f w sg rm Hc Hr E ->. destruct (cvt_elem f (8 * wd) sg rm x Hc Hr E) as (v & fl & C & T). exists v, fl. split; [exact C |]. exists v. split; [exact T | reflexivity]. }
  assert (R : forall rtz : bool, 0 <= (if rtz then 1 else frm) <= 4) by (intros []; lia).
  destruct o; try discriminate To; cbn [fwidths] in Hw; injection Hw as <- <- <-; cbn [fsews In] in Hs; cbn [elem_fn fvrel xf fv_safe] in *; rewrite ?ctype_ffmt.
  - apply K; [destruct Hs as [<- | [<- | []]]; cbn; auto 10 | apply R | exact Safe | reflexivity].
  - destruct Hs as [<- | []]. apply K; [cbn; auto 10 | apply R | exact Safe | reflexivity].
  - apply K; [destruct Hs as [<- | [<- | []]]; cbn; auto 10 | apply R | exact Safe | reflexivity].
Qed.
