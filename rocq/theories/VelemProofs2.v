(** Every element function meets [vrel]. *)
From Coq Require Import ZArith Bool List Lia Znumtheory.
From Verif Require Import Bits Memory IntSpec IntModel IntProofs2 VelemSpec VcfgModel VelemModel VelemProofs1.
Import ListNotations.
Local Open Scope Z_scope.

Lemma wb_ge b : wb b -> 8 <= b <= 64. Proof. intros [-> | [-> | [-> | ->]]]; lia. Qed.
Lemma two_pow_split b : 1 <= b -> 2 ^ b = 2 * 2 ^ (b - 1).
Proof. intros. rewrite <- Z.pow_succ_r by lia. f_equal; lia. Qed.
Lemma sgn_cases b x : 1 <= b -> inw b x -> (sgn b x = x /\ x < 2 ^ (b - 1)) \/ (sgn b x = x - 2 ^ b /\ 2 ^ (b - 1) <= x).
Proof.
  intros Hb [H1 H2]. unfold sgn. rewrite (wrap_id b x) by (unfold inw; lia).
  destruct (Z.ltb_spec x (2 ^ (b - 1))); [left|right]; split; lia.
Qed.
Lemma lxor_neg a c : Z.lxor a c <? 0 = xorb (a <? 0) (c <? 0).
Proof.
  destruct (Z.ltb_spec a 0), (Z.ltb_spec c 0); cbn [xorb];
  apply Bool.eq_true_iff_eq; rewrite Z.ltb_lt.
  - split; [|discriminate]. intros L. pose proof (proj2 (Z.lxor_nonneg a c)). lia.
  - split; [reflexivity|]. intros _. destruct (Z.leb_spec 0 (Z.lxor a c)) as [L|L]; [|exact L].
    apply Z.lxor_nonneg in L. lia.
  - split; [reflexivity|]. intros _. destruct (Z.leb_spec 0 (Z.lxor a c)) as [L|L]; [|exact L].
    apply Z.lxor_nonneg in L. lia.
  - split; [|discriminate]. intros L. pose proof (proj2 (Z.lxor_nonneg a c)). lia.
Qed.
Lemma lxor_nneg a c : 0 <=? Z.lxor a c = negb (xorb (a <? 0) (c <? 0)).
Proof. rewrite <- lxor_neg. apply Z.leb_antisym. Qed.

Ltac ifs := repeat match goal with
  | |- context [?a <=? ?b] => destruct (Z.leb_spec a b)
  | |- context [?a <? ?b] => destruct (Z.ltb_spec a b)
  | |- context [?a =? ?b] => destruct (Z.eqb_spec a b) end.

Lemma wrap_shift b x k : inw b x \/ - 2 ^ b <= x < 0 -> 1 <= b -> k = 0 \/ k = 2 ^ b -> 0 <= x + k < 2 ^ b -> wrap b x = x + k.
Proof.
  intros _ Hb [-> | ->] H.
  - rewrite Z.add_0_r in *. apply wrap_id. exact H.
  - unfold wrap. rewrite <- (Z.mod_add x 1 (2 ^ b)) by lia. rewrite Z.mul_1_l. apply Z.mod_small. exact H.
Qed.

Lemma sgn_eq b x y : 1 <= b -> - 2 ^ (b - 1) <= y < 2 ^ (b - 1) -> wrap b x = wrap b y -> sgn b x = y.
Proof. intros Hb Hy E. rewrite <- (sgn_wrap b x), E, sgn_wrap, sgn_id by lia. reflexivity. Qed.

Lemma vsadd_spec b sx sy : 1 <= b -> - 2 ^ (b - 1) <= sx < 2 ^ (b - 1) -> - 2 ^ (b - 1) <= sy < 2 ^ (b - 1) ->
  vsadd_helper b sx sy = clamp (tmin true b) (tmax true b) (sx + sy).
Proof.
  intros Hb Hx Hy. unfold vsadd_helper, clamp, tmin, tmax. cbv zeta.
  pose proof (two_pow_split b Hb) as E. pose proof (pow2_pos (b - 1) ltac:(lia)) as P.
  rewrite lxor_nneg, lxor_neg. rewrite wrap_add_l, wrap_add_r, sgn_wrap by lia.
  destruct (Z.ltb_spec (sx + sy) (- 2 ^ (b - 1))).
  - rewrite (sgn_eq b (sx + sy) (sx + sy + 2 ^ b)) by (try lia; unfold wrap; rewrite <- (Z.mod_add _ 1 (2 ^ b)) by lia; f_equal; lia).
    destruct (Z.ltb_spec sx 0), (Z.ltb_spec sy 0), (Z.ltb_spec (sx + sy + 2 ^ b) 0), (Z.ltb_spec 0 sx); try lia; reflexivity.
  - destruct (Z.ltb_spec (2 ^ (b - 1) - 1) (sx + sy)).
    + rewrite (sgn_eq b (sx + sy) (sx + sy - 2 ^ b)) by (try lia; unfold wrap; rewrite <- (Z.mod_add (sx + sy - 2 ^ b) 1 (2 ^ b)) by lia; f_equal; lia).
      destruct (Z.ltb_spec sx 0), (Z.ltb_spec sy 0), (Z.ltb_spec (sx + sy - 2 ^ b) 0), (Z.ltb_spec 0 sx); try lia; reflexivity.
    + rewrite (sgn_id b (sx + sy)) by lia.
      destruct (Z.ltb_spec sx 0), (Z.ltb_spec sy 0), (Z.ltb_spec (sx + sy) 0); try lia; reflexivity.
Qed.
Lemma vssub_spec b sx sy : 1 <= b -> - 2 ^ (b - 1) <= sx < 2 ^ (b - 1) -> - 2 ^ (b - 1) <= sy < 2 ^ (b - 1) ->
  vssub_helper b sx sy = clamp (tmin true b) (tmax true b) (sx - sy).
Proof.
  intros Hb Hx Hy. unfold vssub_helper, clamp, tmin, tmax. cbv zeta.
  pose proof (two_pow_split b Hb) as E. pose proof (pow2_pos (b - 1) ltac:(lia)) as P.
  rewrite lxor_nneg, lxor_neg. rewrite wrap_sub_l, wrap_sub_r, sgn_wrap by lia.
  destruct (Z.ltb_spec (sx - sy) (- 2 ^ (b - 1))).
  - rewrite (sgn_eq b (sx - sy) (sx - sy + 2 ^ b)) by (try lia; unfold wrap; rewrite <- (Z.mod_add (sx - sy) 1 (2 ^ b)) by lia; f_equal; lia).
    destruct (Z.ltb_spec sx 0), (Z.ltb_spec sy 0), (Z.ltb_spec (sx - sy + 2 ^ b) 0); try lia; reflexivity.
  - destruct (Z.ltb_spec (2 ^ (b - 1) - 1) (sx - sy)).
    + rewrite (sgn_eq b (sx - sy) (sx - sy - 2 ^ b)) by (try lia; unfold wrap; rewrite <- (Z.mod_add (sx - sy - 2 ^ b) 1 (2 ^ b)) by lia; f_equal; lia).
      destruct (Z.ltb_spec sx 0), (Z.ltb_spec sy 0), (Z.ltb_spec (sx - sy - 2 ^ b) 0); try lia; reflexivity.
    + rewrite (sgn_id b (sx - sy)) by lia.
      destruct (Z.ltb_spec sx 0), (Z.ltb_spec sy 0), (Z.ltb_spec (sx - sy) 0); try lia; reflexivity.
Qed.

Lemma clamp_range lo hi v r s : lo <= hi -> clamp lo hi v = (r, s) -> lo <= r <= hi.
Proof. intros H. unfold clamp. destruct (Z.ltb_spec v lo), (Z.ltb_spec hi v); intros [= <- <-]; lia. Qed.

Lemma prod_range b sx sy : 1 <= b -> - 2 ^ (b - 1) <= sx < 2 ^ (b - 1) -> - 2 ^ (b - 1) <= sy < 2 ^ (b - 1) ->
  - 2 ^ (2 * b - 1) <= sx * sy < 2 ^ (2 * b - 1).
Proof.
  intros Hb Hx Hy. replace (2 * b - 1) with ((b - 1) + (b - 1) + 1) by lia.
  rewrite !Z.pow_add_r by lia. pose proof (pow2_pos (b - 1) ltac:(lia)). set (p := 2 ^ (b - 1)) in *. clearbody p.
  change (2 ^ 1) with 2. nia.
Qed.
Lemma prod_range_su b sx y : 1 <= b -> - 2 ^ (b - 1) <= sx < 2 ^ (b - 1) -> inw b y ->
  - 2 ^ (2 * b - 1) <= sx * y < 2 ^ (2 * b - 1).
Proof.
  unfold inw. intros Hb Hx Hy. replace (2 * b - 1) with ((b - 1) + (b - 1) + 1) by lia.
  pose proof (two_pow_split b Hb) as E. rewrite !Z.pow_add_r by lia. pose proof (pow2_pos (b - 1) ltac:(lia)).
  set (p := 2 ^ (b - 1)) in *. clearbody p. change (2 ^ 1) with 2. nia.
Qed.
Lemma prod_range_u b x y : 1 <= b -> inw b x -> inw b y -> inw (2 * b) (x * y).
Proof.
  unfold inw. intros Hb Hx Hy. replace (2 * b) with (b + b) by lia. rewrite Z.pow_add_r by lia.
  pose proof (pow2_pos b ltac:(lia)). set (p := 2 ^ b) in *. clearbody p. nia.
Qed.

Lemma vsmul_spec b rm sx sy : wb b -> 0 <= rm < 4 -> - 2 ^ (b - 1) <= sx < 2 ^ (b - 1) -> - 2 ^ (b - 1) <= sy < 2 ^ (b - 1) ->
  vsmul_helper b rm sx sy = clamp (tmin true b) (tmax true b) (roundoff rm (sx * sy) (b - 1)).
Proof.
  intros Hb Hrm Hx Hy. pose proof (wb_ge b Hb) as G. pose proof (prod_range b sx sy ltac:(lia) Hx Hy) as PR.
  unfold vsmul_helper. cbv zeta. rewrite (sgn_id (2 * b)) by lia.
  rewrite vssr_spec; try lia; [|destruct Hb as [-> | [-> | [-> | ->]]]; reflexivity].
  rewrite (Z.mod_small (b - 1) (2 * b)) by lia. cbn [cast].
  rewrite sgn_id by (try apply roundoff_range; lia). unfold clamp.
  destruct (_ <? _); [reflexivity|]. destruct (_ <? _); reflexivity.
Qed.

(** * Bit permutations *)
Lemma bit_reverse_bits w n res x i : 1 <= w -> Z.of_nat n <= w -> 0 <= i < w ->
  Z.testbit (bit_reverse w n res x) i =
  if i <? Z.of_nat n then Z.testbit x (Z.of_nat n - 1 - i) else Z.testbit res (i - Z.of_nat n).
Proof.
  intros Hw; revert res x; induction n as [|n IH]; intros res x Hn Hi; cbn [bit_reverse].
  - destruct (Z.ltb_spec i (Z.of_nat 0)); [lia|]. f_equal; lia.
  - rewrite IH by lia. destruct (Z.ltb_spec i (Z.of_nat n)).
    + destruct (Z.ltb_spec i (Z.of_nat (S n))); [|lia]. rewrite Z.shiftr_spec by lia. f_equal; lia.
    + rewrite Z.lor_spec, wrap_testbit, Z.shiftl_spec by lia.
      assert (Z.testbit (Z.land x 1) (i - Z.of_nat n) = (i - Z.of_nat n =? 0) && Z.testbit x 0) as ->.
      { rewrite Z.land_spec. destruct (Z.eqb_spec (i - Z.of_nat n) 0) as [-> |N]; [apply andb_true_r|].
        change 1 with (Z.ones 1). rewrite Z.ones_spec_high by lia. apply andb_false_r. }
      destruct (Z.ltb_spec i (Z.of_nat (S n))).
      * assert (i = Z.of_nat n) as -> by lia. rewrite Z.sub_diag. rewrite (Z.testbit_neg_r _ (0 - 1)) by lia.
        rewrite andb_false_r. cbn [Z.eqb andb orb]. f_equal; lia.
      * destruct (Z.eqb_spec (i - Z.of_nat n) 0); [lia|]. cbn [andb]. rewrite orb_false_r.
        destruct (Z.ltb_spec (i - Z.of_nat n) w); [|lia]. cbn [andb]. f_equal; lia.
Qed.
Lemma bit_reverse_inw w n res x : 1 <= w -> inw w res -> inw w (bit_reverse w n res x).
Proof.
  intros Hw; revert res x; induction n as [|n IH]; intros res x Hr; cbn [bit_reverse]; [exact Hr|].
  apply IH, inw_lor; [lia|apply wrap_range; lia|]. apply inw_land_r; [lia|]. unfold inw.
  pose proof (two_pow_split w Hw). pose proof (pow2_pos (w - 1) ltac:(lia)). lia.
Qed.
Lemma byte_swap_bits sz n x i : 0 <= i < 8 * sz -> Z.of_nat n <= sz ->
  Z.testbit (byte_swap sz n x) i = (8 * (sz - Z.of_nat n) <=? i) && Z.testbit x (8 * (sz - 1 - i / 8) + i mod 8).
Proof.
  intros Hi; induction n as [|n IH]; intros Hn; cbn [byte_swap].
  - rewrite Z.bits_0. destruct (Z.leb_spec (8 * (sz - Z.of_nat 0)) i); [lia|reflexivity].
  - rewrite Z.lor_spec, IH by lia. change 0xff with (Z.ones 8).
    pose proof (Z.div_mod i 8 ltac:(lia)). pose proof (Z.mod_pos_bound i 8 ltac:(lia)).
    rewrite Z.shiftl_spec by lia.
    destruct (Z.leb_spec (8 * (sz - Z.of_nat n)) i).
    + destruct (Z.leb_spec (8 * (sz - Z.of_nat (S n))) i); [|lia]. cbn [andb].
      rewrite Z.land_spec, Z.ones_spec_high by lia. rewrite andb_false_r, orb_false_r. reflexivity.
    + cbn [andb orb]. destruct (Z.leb_spec (8 * (sz - Z.of_nat (S n))) i); cbn [andb].
      * rewrite Z.land_spec, Z.ones_spec_low, Z.shiftr_spec, andb_true_r by lia. f_equal. lia.
      * apply Z.testbit_neg_r. lia.
Qed.
Lemma brev8_bits n x i : 0 <= i < 8 * Z.of_nat n ->
  Z.testbit (brev8_loop n x) i = Z.testbit x (8 * (i / 8) + (7 - i mod 8)).
Proof.
  revert x i; induction n as [|n IH]; intros x i Hi; [lia|]. cbn [brev8_loop].
  set (lo := bit_reverse 8 8 0 (Z.land x 0xff)).
  assert (inw 8 lo) as L by (apply bit_reverse_inw; [lia|unfold inw; lia]).
  assert (Z.land lo (Z.shiftl (brev8_loop n (Z.shiftr x 8)) 8) = 0) as D.
  { apply Z.bits_inj'. intros k Hk. rewrite Z.land_spec, Z.bits_0, Z.shiftl_spec by lia.
    destruct (Z.ltb_spec k 8).
    - rewrite (Z.testbit_neg_r _ (k - 8)) by lia. apply andb_false_r.
    - rewrite (inw_testbit_high 8 lo) by (assumption || lia). reflexivity. }
  assert (lo + 256 * brev8_loop n (Z.shiftr x 8) = Z.lor lo (Z.shiftl (brev8_loop n (Z.shiftr x 8)) 8)) as ->.
  { rewrite <- Z.lxor_lor by exact D. rewrite <- Z.add_nocarry_lxor by exact D.
    rewrite Z.shiftl_mul_pow2 by lia. change (2 ^ 8) with 256. lia. }
  rewrite Z.lor_spec, Z.shiftl_spec by lia.
  destruct (Z.ltb_spec i 8).
  - rewrite (Z.testbit_neg_r _ (i - 8)) by lia. rewrite orb_false_r, (Z.div_small i 8), (Z.mod_small i 8) by lia.
    unfold lo. rewrite bit_reverse_bits by lia. destruct (Z.ltb_spec i (Z.of_nat 8)); [|lia].
    rewrite Z.land_spec. change 0xff with (Z.ones 8). rewrite Z.ones_spec_low, andb_true_r by lia. f_equal; lia.
  - rewrite (inw_testbit_high 8 lo i) by (assumption || lia). cbn [orb]. rewrite IH by lia.
    assert (i / 8 = (i - 8) / 8 + 1 /\ i mod 8 = (i - 8) mod 8) as [-> ->].
    { replace i with (i - 8 + 1 * 8) by lia. rewrite Z.div_add, Z.mod_add by lia.
      replace (i - 8 + 1 * 8 - 8) with (i - 8) by lia. split; reflexivity. }
    pose proof (Z.mod_pos_bound (i - 8) 8 ltac:(lia)). pose proof (Z.div_pos (i - 8) 8 ltac:(lia) ltac:(lia)).
    rewrite Z.shiftr_spec by lia. f_equal; lia.
Qed.
Lemma rotl_bits' w a k i : 1 <= w -> inw w a -> 0 <= k < w -> 0 <= i < w ->
  Z.testbit (rotl w a k) i = Z.testbit a ((i - k) mod w).
Proof.
  intros H Ha Hk Hi. unfold rotl. destruct (Z.eqb_spec k 0) as [->|N].
  - rewrite Z.sub_0_r, Z.mod_small by lia. reflexivity.
  - rewrite Z.lor_spec, wrap_testbit, Z.shiftl_spec, Z.shiftr_spec by lia.
    destruct (Z.ltb_spec i w); [|lia]. cbn [andb].
    destruct (Z.leb_spec k i).
    + rewrite (Z.mod_small (i - k)) by lia. rewrite (inw_testbit_high w a (i + (w - k))) by (assumption || lia).
      apply orb_false_r.
    + rewrite (Z.testbit_neg_r a (i - k)) by lia. cbn [orb].
      replace (i - k) with (i - k + w + (-1) * w) by lia. rewrite Z.mod_add, Z.mod_small by lia. f_equal; lia.
Qed.
Lemma rotr_bits' w a k i : 1 <= w -> inw w a -> 0 <= k < w -> 0 <= i < w ->
  Z.testbit (rotr w a k) i = Z.testbit a ((i + k) mod w).
Proof.
  intros H Ha Hk Hi. unfold rotr. destruct (Z.eqb_spec k 0) as [->|N].
  - rewrite Z.add_0_r, Z.mod_small by lia. reflexivity.
  - rewrite Z.lor_spec, wrap_testbit, Z.shiftl_spec, Z.shiftr_spec by lia.
    destruct (Z.ltb_spec i w); [|lia]. cbn [andb].
    destruct (Z.ltb_spec (i + k) w).
    + rewrite (Z.mod_small (i + k)) by lia. rewrite (Z.testbit_neg_r a (i - (w - k))) by lia. apply orb_false_r.
    + rewrite (inw_testbit_high w a (i + k)) by (assumption || lia). cbn [orb].
      replace (i + k) with (i - (w - k) + 1 * w) by lia. rewrite Z.mod_add, Z.mod_small by lia. reflexivity.
Qed.

(** * The combined statement *)
Definition sew_fits (o : vop) (b : Z) : Prop :=
  match o with
  | Vzext k | Vsext k => In k [2; 4; 8] /\ 8 * k <= b
  | _ => True end.
(** Operand widths in bits. *)
Definition w2_of (o : vop) (b : Z) : Z := let '(_, w2, _) := widths o (b / 8) in 8 * w2.
Definition wd_of (o : vop) (b : Z) : Z := let '(wd, _, _) := widths o (b / 8) in 8 * wd.
Definition rem_ok (o : vop) (b x y : Z) : Prop :=
  o = Vrem -> 32 <= b -> ~ (sgn b x = - 2 ^ (b - 1) /\ sgn b y = -1).

Lemma bitwise_wrap b r f : 0 <= b -> bitwise b r f -> bitwise b (wrap b r) f.
Proof. intros Hb H i Hi. rewrite wrap_testbit by lia. destruct (Z.ltb_spec i b); [|lia]. apply H. exact Hi. Qed.
Lemma leading_wrap b x r : 0 <= b -> 8 <= b -> leading_zeros b x r -> leading_zeros b x (wrap b r).
Proof.
  intros _ Hb H. rewrite wrap_id; [exact H|]. destruct H as (H & _). unfold inw.
  assert (b < 2 ^ b) by (apply Z.pow_gt_lin_r; lia). lia.
Qed.
Lemma trailing_wrap b x r : 8 <= b -> trailing_zeros b x r -> trailing_zeros b x (wrap b r).
Proof.
  intros Hb H. rewrite wrap_id; [exact H|]. destruct H as (H & _). unfold inw.
  assert (b < 2 ^ b) by (apply Z.pow_gt_lin_r; lia). lia.
Qed.
Lemma clampu_wrap b v r s : 0 <= b -> clamp 0 (2 ^ b - 1) v = (r, s) -> (wrap b r, s) = clampu b v.
Proof.
  intros Hb H. unfold clampu. rewrite H. pose proof (pow2_pos b Hb). apply clamp_range in H; [|lia].
  rewrite wrap_id; [reflexivity|unfold inw; lia].
Qed.
Lemma clamps_wrap b v r s : clamp (- 2 ^ (b - 1)) (2 ^ (b - 1) - 1) v = (r, s) -> (wrap b r, s) = clamps b v.
Proof. intros H. unfold clamps. rewrite H. reflexivity. Qed.

Lemma shiftr_lt_wrap b x k : 0 <= b -> 0 <= k -> inw b x -> wrap b (Z.shiftr x k) = x / 2 ^ k.
Proof.
  intros Hb Hk Hx. rewrite wrap_id; [apply Z.shiftr_div_pow2; lia|]. apply inw_shiftr; (lia || assumption).
Qed.

Ltac avg Hb b :=
  do 2 eexists; split; [reflexivity|split; [|reflexivity]]; unfold vaadd_helper, vasub_helper, avg_sg, avg_w;
    (destruct (Z.eqb_spec b 8) as [-> |N];
     [ rewrite round_off_spec by (lia || discriminate); cbn [cast];
       (match goal with |- context [sgn 32 ?e] => rewrite (sgn_id 32 e) by (unfold inw in *; change (2 ^ (32 - 1)) with 2147483648; change (2 ^ 8) with 256 in *; change (2 ^ (8 - 1)) with 128 in *; lia) end);
       reflexivity
     | assert (16 <= b) by (destruct Hb as [? | [? | [? | ?]]]; lia);
       rewrite round_off_spec by (try lia; intros; cbn [cast]; try discriminate; apply wrap_range; lia); cbn [cast]]).
Ltac triv := do 2 eexists; split; [reflexivity|split; reflexivity].
Ltac wmacc := do 2 eexists; split; [reflexivity|split; [|reflexivity]]; unfold vwmacc_helper;
    rewrite wrap_wrap by lia; rewrite wrap_mul_l, wrap_mul_r, wrap_add_l; f_equal; lia.

Lemma elem_correct o b rm m x y z : wb b -> sew_fits o b -> 0 <= rm < 4 ->
  inw (w2_of o b) x -> inw b y -> rem_ok o b x y ->
  exists r s, elem_op o b rm m x y z = Some (r, s) /\ vrel o b rm m x y z (wrap (wd_of o b) r) s.
Proof.
  intros Hb Hf Hrm Hx Hy Hrem. pose proof (wb_ge b Hb) as G.
  assert (b = 8 * (b / 8)) as E8 by (destruct Hb as [-> | [-> | [-> | ->]]]; reflexivity).
  pose proof (pow2_pos b ltac:(lia)) as PB. pose proof (two_pow_split b ltac:(lia)) as SPL.
  pose proof (sgn_range b x ltac:(lia)) as RX. pose proof (sgn_range b y ltac:(lia)) as RY.
  assert (8 * (2 * (b / 8)) = 2 * b) as E16 by lia.
  destruct o; unfold wd_of, w2_of, widths in *; cbv iota beta zeta in *;
    try (rewrite <- E8 in Hx); try (rewrite E16 in Hx); try rewrite <- E8; try rewrite E16;
    unfold elem_op, vrel; cbv zeta; cbn [fst snd].
  (* Vadd Vsub Vrsub *)
  1-3: do 2 eexists; split; [reflexivity|split; reflexivity].
  (* Vand Vor Vxor *)
  1-3: do 2 eexists; split; [reflexivity|split; [|reflexivity]]; apply bitwise_wrap; [lia|]; intros i Hi;
    first [apply Z.land_spec | apply Z.lor_spec | apply Z.lxor_spec].
  (* Vsll *)
  - do 2 eexists; split; [reflexivity|split; [|reflexivity]].
    rewrite land_b, Z.shiftl_mul_pow2 by (assumption || apply Z.mod_pos_bound; lia). reflexivity.
  (* Vsrl *)
  - do 2 eexists; split; [reflexivity|split; [|reflexivity]]. rewrite land_b by assumption.
    apply shiftr_lt_wrap; [lia|apply Z.mod_pos_bound; lia|assumption].
  (* Vsra *)
  - do 2 eexists; split; [reflexivity|split; [|reflexivity]]. rewrite land_b, sgn_mod_b by assumption.
    rewrite Z.shiftr_div_pow2 by (apply Z.mod_pos_bound; lia). reflexivity.
  (* Vnsrl *)
  - do 2 eexists; split; [reflexivity|split; [|reflexivity]]. rewrite land_2b by assumption.
    rewrite Z.shiftr_div_pow2 by (apply Z.mod_pos_bound; lia). reflexivity.
  (* Vnsra *)
  - do 2 eexists; split; [reflexivity|split; [|reflexivity]]. rewrite land_2b, sgn_mod_2b by assumption.
    rewrite Z.shiftr_div_pow2 by (apply Z.mod_pos_bound; lia). reflexivity.
  (* Vminu .. Vmax *)
  - do 2 eexists; split; [reflexivity|split; [|reflexivity]].
    destruct (Z.ltb_spec y x); rewrite wrap_id by assumption; lia.
  - do 2 eexists; split; [reflexivity|split; [|reflexivity]].
    destruct (Z.ltb_spec (sgn b y) (sgn b x)); f_equal; lia.
  - do 2 eexists; split; [reflexivity|split; [|reflexivity]].
    destruct (Z.ltb_spec x y); rewrite wrap_id by assumption; lia.
  - do 2 eexists; split; [reflexivity|split; [|reflexivity]].
    destruct (Z.ltb_spec (sgn b x) (sgn b y)); f_equal; lia.
  (* Vsaddu *)
  - unfold inw in *. destruct (Z.ltb_spec (x + y) (2 ^ b)).
    + rewrite (wrap_id b (x + y)) by (unfold inw; lia). destruct (Z.ltb_spec (x + y) y); [lia|].
      do 2 eexists; split; [reflexivity|]. unfold clampu, clamp.
      rewrite (wrap_id b (x + y)) by (unfold inw; lia).
      destruct (Z.ltb_spec (x + y) 0), (Z.ltb_spec (2 ^ b - 1) (x + y)); try lia. reflexivity.
    + assert (wrap b (x + y) = x + y - 2 ^ b) as ->.
      { unfold wrap. symmetry. apply (Z.mod_unique _ _ 1); lia. }
      destruct (Z.ltb_spec (x + y - 2 ^ b) y); [|lia].
      do 2 eexists; split; [reflexivity|]. unfold clampu, clamp, tmax. rewrite wrap_id by (unfold inw; lia).
      destruct (Z.ltb_spec (x + y) 0), (Z.ltb_spec (2 ^ b - 1) (x + y)); try lia. reflexivity.
  (* Vsadd *)
  - rewrite vsadd_spec by lia. unfold tmin, tmax.
    destruct (clamp (- 2 ^ (b - 1)) (2 ^ (b - 1) - 1) (sgn b x + sgn b y)) as [r s] eqn:E.
    do 2 eexists; split; [reflexivity|]. apply clamps_wrap; exact E.
  (* Vssubu *)
  - unfold inw in *. destruct (Z.ltb_spec x y).
    + do 2 eexists; split; [reflexivity|]. unfold clampu, clamp. destruct (Z.ltb_spec (x - y) 0); [|lia].
      rewrite wrap_id by (unfold inw; lia). reflexivity.
    + do 2 eexists; split; [reflexivity|]. unfold clampu, clamp. destruct (Z.ltb_spec (x - y) 0); [lia|].
      destruct (Z.ltb_spec (2 ^ b - 1) (x - y)); [lia|]. rewrite !(wrap_id b (x - y)) by (unfold inw; lia). reflexivity.
  (* Vssub *)
  - rewrite vssub_spec by lia. unfold tmin, tmax.
    destruct (clamp (- 2 ^ (b - 1)) (2 ^ (b - 1) - 1) (sgn b x - sgn b y)) as [r s] eqn:E.
    do 2 eexists; split; [reflexivity|]. apply clamps_wrap; exact E.
  (* Vadc Vsbc Vmerge *)
  - do 2 eexists; split; [reflexivity|split; reflexivity].
  - do 2 eexists; split; [reflexivity|split; reflexivity].
  - do 2 eexists; split; [reflexivity|split; [|reflexivity]]. destruct m; apply wrap_id; assumption.
  (* Vssrl Vssra *)
  - do 2 eexists; split; [reflexivity|split; [|reflexivity]].
    rewrite vssr_spec; try lia; [|destruct Hb as [-> | [-> | [-> | ->]]]; reflexivity].
    cbn [cast]. rewrite wrap_wrap by lia. apply wrap_id, roundoff_rangeu; [apply Z.mod_pos_bound; lia|lia|assumption].
  - do 2 eexists; split; [reflexivity|split; [|reflexivity]].
    rewrite vssr_spec; try lia; [|destruct Hb as [-> | [-> | [-> | ->]]]; reflexivity].
    cbn [cast]. rewrite wrap_sgn, sgn_mod_b by (assumption || lia). reflexivity.
  (* Vnclipu Vnclip *)
  - rewrite vnclip_spec by assumption. unfold tmin, tmax.
    destruct (clamp 0 (2 ^ b - 1) (roundoff rm x (y mod (2 * b)))) as [r s] eqn:E.
    do 2 eexists; split; [reflexivity|]. apply clampu_wrap; [lia|exact E].
  - rewrite vnclip_spec by (try assumption; apply sgn_range; lia). unfold tmin, tmax. rewrite sgn_mod_2b by assumption.
    destruct (clamp (- 2 ^ (b - 1)) (2 ^ (b - 1) - 1) (roundoff rm (sgn (2 * b) x) (y mod (2 * b)))) as [r s] eqn:E.
    do 2 eexists; split; [reflexivity|]. apply clamps_wrap; exact E.
  (* Vsmul *)
  - rewrite vsmul_spec by assumption. unfold tmin, tmax.
    destruct (clamp (- 2 ^ (b - 1)) (2 ^ (b - 1) - 1) (roundoff rm (sgn b x * sgn b y) (b - 1))) as [r s] eqn:E.
    do 2 eexists; split; [reflexivity|]. apply clamps_wrap; exact E.
  (* Vaaddu Vaadd Vasubu Vasub *)
  - avg Hb b. apply roundoff_wrap; lia.
  - avg Hb b. rewrite sgn_id; [reflexivity|lia|]. assert (2 ^ b <= 2 ^ (2 * b - 1)) by (apply Z.pow_le_mono_r; lia); lia.
  - avg Hb b. apply roundoff_wrap; lia.
  - avg Hb b. rewrite sgn_id; [reflexivity|lia|]. assert (2 ^ b <= 2 ^ (2 * b - 1)) by (apply Z.pow_le_mono_r; lia); lia.
  (* Vdivu *)
  - unfold inw in *. do 2 eexists; split; [reflexivity|split; [|reflexivity]].
    destruct (Z.eqb_spec y 0) as [-> |N].
    + change (Z.lnot 0) with (-1). unfold wrap. symmetry. apply (Z.mod_unique _ _ (-1)); lia.
    + apply wrap_id. unfold inw. split; [apply Z.div_pos; lia|]. apply Z.div_lt_upper_bound; nia.
  (* Vdiv *)
  - do 2 eexists; split; [reflexivity|split; [|reflexivity]]. unfold div_spec, tmin.
    destruct (Z.eqb_spec (sgn b y) 0); [reflexivity|]. rewrite andb_comm.
    destruct (Z.eqb_spec (sgn b x) (- 2 ^ (b - 1))) as [-> |]; cbn [andb]; [|reflexivity].
    destruct (sgn b y =? -1); reflexivity.
  (* Vremu *)
  - unfold inw in *. do 2 eexists; split; [reflexivity|split; [|reflexivity]].
    destruct (Z.eqb_spec y 0); apply wrap_id; [exact Hx|]. unfold inw. pose proof (Z.mod_pos_bound x y). lia.
  (* Vrem *)
  - unfold rem_spec. destruct (Z.eqb_spec (sgn b y) 0).
    + do 2 eexists; split; [reflexivity|split; reflexivity].
    + destruct (Z.eqb_spec (sgn b x) (- 2 ^ (b - 1))) as [EX|], (Z.eqb_spec (sgn b y) (-1)) as [EY|]; cbn [andb];
        try (do 2 eexists; split; [reflexivity|split; reflexivity]).
      destruct (Z.leb_spec 32 b) as [L|L].
      * exfalso. apply (Hrem eq_refl L). split; assumption.
      * do 2 eexists; split; [reflexivity|split; [|reflexivity]]. f_equal. rewrite EY.
        change (-1) with (- (1)). rewrite Z.rem_opp_r, Z.rem_1_r by lia. reflexivity.
  (* Vmulhu *)
  - do 2 eexists; split; [reflexivity|split; [|reflexivity]]. unfold vmul_high. cbn [cast].
    pose proof (prod_range_u b x y ltac:(lia) Hx Hy) as PU. rewrite (wrap_id (2 * b)) by assumption.
    rewrite Z.shiftr_div_pow2 by lia. apply wrap_id. unfold inw in *. split; [apply Z.div_pos; lia|].
    apply Z.div_lt_upper_bound; [lia|]. replace (2 * b) with (b + b) in PU by lia. rewrite Z.pow_add_r in PU by lia. lia.
  (* Vmul *)
  - do 2 eexists; split; [reflexivity|split; reflexivity].
  (* Vmulhsu *)
  - do 2 eexists; split; [reflexivity|split; [|reflexivity]]. unfold vmul_high_su.
    rewrite sgn_id by (try lia; apply prod_range_su; (lia || assumption)). rewrite Z.shiftr_div_pow2 by lia. reflexivity.
  (* Vmulh *)
  - do 2 eexists; split; [reflexivity|split; [|reflexivity]]. unfold vmul_high. cbn [cast].
    rewrite sgn_id by (try lia; apply prod_range; (lia || assumption)). rewrite Z.shiftr_div_pow2 by lia. reflexivity.
  (* Vmadd Vnmsub Vmacc Vnmsac Vwaddu Vwsubu *)
  - triv.
  - triv.
  - triv.
  - triv.
  - triv.
  - triv.
  (* Vwadd Vwsub *)
  - do 2 eexists; split; [reflexivity|split; [|reflexivity]]. rewrite wrap_add_l, wrap_add_r. reflexivity.
  - do 2 eexists; split; [reflexivity|split; [|reflexivity]]. rewrite wrap_sub_l, wrap_sub_r. reflexivity.
  (* Vwadduw Vwsubuw *)
  - triv.
  - triv.
  - do 2 eexists; split; [reflexivity|split; [|reflexivity]]. rewrite wrap_add_r. reflexivity.
  - do 2 eexists; split; [reflexivity|split; [|reflexivity]]. rewrite wrap_sub_r. reflexivity.
  (* Vwmulu Vwmulsu Vwmul *)
  - do 2 eexists; split; [reflexivity|split; [|reflexivity]]. rewrite wrap_wrap by lia.
    apply wrap_id, prod_range_u; (lia || assumption).
  - do 2 eexists; split; [reflexivity|split; [|reflexivity]]. apply wrap_wrap; lia.
  - do 2 eexists; split; [reflexivity|split; [|reflexivity]]. apply wrap_sgn; lia.
  (* Vwmacc* *)
  - wmacc.
  - wmacc.
  - wmacc.
  - wmacc.
  (* Vzext Vsext *)
  - do 2 eexists; split; [reflexivity|split; [|reflexivity]]. cbn [sew_fits] in Hf. destruct Hf as [Hk Hkb].
    apply wrap_id. eapply inw_weaken; [|exact Hx]. cbn [In] in Hk.
    destruct Hk as [<- | [<- | [<- | []]]]; split; try (apply Z.mul_nonneg_nonneg; [lia|apply Z.div_pos; lia]);
      destruct Hb as [-> | [-> | [-> | ->]]]; cbn; lia.
  - do 2 eexists; split; [reflexivity|split; reflexivity].
  (* Vandn *)
  - do 2 eexists; split; [reflexivity|split; [|reflexivity]]; apply bitwise_wrap; [lia|]; intros i Hi.
    rewrite Z.land_spec, Z.lnot_spec by lia. reflexivity.
  (* Vrol Vror *)
  - do 2 eexists; split; [reflexivity|split; [|reflexivity]]; apply bitwise_wrap; [lia|]; intros i Hi.
    rewrite land_b by assumption. rewrite rotl_bits' by (try assumption; try lia; apply Z.mod_pos_bound; lia).
    rewrite Zminus_mod_idemp_r. reflexivity.
  - do 2 eexists; split; [reflexivity|split; [|reflexivity]]; apply bitwise_wrap; [lia|]; intros i Hi.
    rewrite land_b by assumption. rewrite rotr_bits' by (try assumption; try lia; apply Z.mod_pos_bound; lia).
    rewrite Zplus_mod_idemp_r. reflexivity.
  (* Vwsll *)
  - do 2 eexists; split; [reflexivity|split; [|reflexivity]].
    rewrite land_2b, Z.shiftl_mul_pow2 by (assumption || apply Z.mod_pos_bound; lia). reflexivity.
  (* Vbrev8 Vrev8 Vbrev *)
  - do 2 eexists; split; [reflexivity|split; [|reflexivity]]; apply bitwise_wrap; [lia|]; intros i Hi.
    apply brev8_bits. rewrite Z2Nat.id by lia. lia.
  - do 2 eexists; split; [reflexivity|split; [|reflexivity]]; apply bitwise_wrap; [lia|]; intros i Hi.
    destruct (Z.eqb_spec b 8) as [-> |N].
    + rewrite (Z.div_small i 8), (Z.mod_small i 8) by lia. f_equal; lia.
    + rewrite byte_swap_bits by (rewrite ?Z2Nat.id by lia; lia). rewrite Z2Nat.id by lia.
      destruct (Z.leb_spec (8 * (b / 8 - b / 8)) i); [|lia]. cbn [andb]. f_equal. lia.
  - do 2 eexists; split; [reflexivity|split; [|reflexivity]]; apply bitwise_wrap; [lia|]; intros i Hi.
    rewrite bit_reverse_bits by (rewrite ?Z2Nat.id by lia; lia). rewrite Z2Nat.id by lia.
    destruct (Z.ltb_spec i b); [reflexivity|lia].
  (* Vclz Vctz Vcpopv *)
  - do 2 eexists; split; [reflexivity|split; [|reflexivity]]. apply leading_wrap; try lia. apply countl_spec; lia.
  - do 2 eexists; split; [reflexivity|split; [|reflexivity]]. apply trailing_wrap; try lia. apply countr_spec; lia.
  - do 2 eexists; split; [reflexivity|split; [|reflexivity]]. rewrite popcount_spec.
    pose proof (ones_count_range b x ltac:(lia)). apply wrap_id. unfold inw.
    assert (b < 2 ^ b) by (apply Z.pow_gt_lin_r; lia). lia.
Qed.
