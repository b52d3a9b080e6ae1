(** Proofs about the integer instructions, part 1: per-instruction lemmas. *)
From Coq Require Import ZArith Bool List Lia Zquot.
From Verif Require Import Bits IntSpec IntModel.
Import ListNotations.
Local Open Scope Z_scope.

Definition wok (w : Z) : Prop := w = 32 \/ w = 64.
Definition good (w : Z) (op : iop) (a b : Z) (v : option Z) : Prop :=
  exists r, v = Some r /\ rd_rel w op a b r.

Lemma good_intro w op a b r : inw w r -> iop_rel w op a b r -> good w op a b (Some r).
Proof. intros [] ?; exists r; repeat split; assumption. Qed.

Lemma wok_pos w : wok w -> 0 < w.
Proof. intros [->| ->]; lia. Qed.
Lemma wrap_inw w x : wok w -> inw w (wrap w x).
Proof. intros H; apply wrap_range; pose proof (wok_pos w H); lia. Qed.
Ltac solve_w H := let P := fresh in pose proof (wok_pos _ H) as P; lia.

Lemma land_shmask w b : wok w -> Z.land b (shmask w) = b mod w.
Proof.
  intros [->| ->]; unfold shmask; cbn [Z.eqb Pos.eqb].
  - change 31 with (Z.ones 5). rewrite Z.land_ones by lia. reflexivity.
  - change 63 with (Z.ones 6). rewrite Z.land_ones by lia. reflexivity.
Qed.
Lemma land_1f b : Z.land b 0x1f = b mod 32.
Proof. exact (land_shmask 32 b (or_introl eq_refl)). Qed.
Lemma wrap_mod_small w b : wok w -> wrap w b mod w = b mod w.
Proof.
  intros H. change (b mod w) with (b mod w).
  assert (exists k, 0 <= k <= w /\ w = 2 ^ k) as (k & Hk & E).
  { destruct H as [->| ->]; [exists 5|exists 6]; split; (lia || reflexivity). }
  pose proof (wrap_wrap_le k w b Hk) as X. unfold wrap in *. rewrite <- E in X. exact X.
Qed.
Lemma sgn_mod w b : wok w -> sgn w b mod w = b mod w.
Proof.
  intros H. rewrite <- (wrap_mod_small w (sgn w b)), wrap_sgn, wrap_mod_small by (assumption || solve_w H). reflexivity.
Qed.
Lemma mod_w_range w b : wok w -> 0 <= b mod w < w.
Proof. intros H; apply Z.mod_pos_bound; solve_w H. Qed.
Lemma sgn32_s32 x : sgn 32 x mod 2 ^ 64 = wrap 64 (sgn 32 x).
Proof. reflexivity. Qed.
Lemma sext_congr x y : wrap 32 x = wrap 32 y -> sext32 x = sext32 y.
Proof. intros E; unfold sext32, sgn; rewrite E; reflexivity. Qed.
Lemma inw64_sext x : inw 64 (sext32 x).
Proof. apply (wrap_range 64); lia. Qed.
Lemma inw_small w x n : 0 <= n <= w -> inw n x -> inw w x.
Proof. intros; eapply inw_weaken; eauto. Qed.
Lemma inw_b2 w (c : bool) : wok w -> inw w (if c then 1 else 0).
Proof. intros [->| ->]; destruct c; unfold inw; lia. Qed.

Lemma sgn_add_wrap w a b : 1 <= w -> wrap w (sgn w a + sgn w b) = wrap w (a + b).
Proof.
  intros. rewrite <- (wrap_add_l w (sgn w a)), <- (wrap_add_r w (wrap w (sgn w a))), !wrap_sgn by lia.
  rewrite wrap_add_l, wrap_add_r. reflexivity.
Qed.
Lemma sgn_sub_wrap w a b : 1 <= w -> wrap w (sgn w a - sgn w b) = wrap w (a - b).
Proof.
  intros. rewrite <- (wrap_sub_l w (sgn w a)), <- (wrap_sub_r w (wrap w (sgn w a))), !wrap_sgn by lia.
  rewrite wrap_sub_l, wrap_sub_r. reflexivity.
Qed.
Lemma sgn_mul_wrap w a b : 1 <= w -> wrap w (sgn w a * sgn w b) = wrap w (a * b).
Proof.
  intros. rewrite <- (wrap_mul_l w (sgn w a)), <- (wrap_mul_r w (wrap w (sgn w a))), !wrap_sgn by lia.
  rewrite wrap_mul_l, wrap_mul_r. reflexivity.
Qed.

(** ** Base instructions. *)
Section base.
Context (w a b : Z) (Hw : wok w) (Ha : inw w a) (Hb : inw w b).

Lemma ok_add : good w Add a b (i_add w a b).
Proof. apply good_intro; [apply wrap_inw, Hw|reflexivity]. Qed.
Lemma ok_sub : good w Sub a b (i_sub w a b).
Proof. apply good_intro; [apply wrap_inw, Hw|reflexivity]. Qed.
Lemma ok_slt : good w Slt a b (i_slt w a b).
Proof. apply good_intro; [apply inw_b2, Hw|reflexivity]. Qed.
Lemma ok_sltu : good w Sltu a b (i_sltu w a b).
Proof. apply good_intro; [apply inw_b2, Hw|reflexivity]. Qed.
Lemma ok_and : good w And a b (i_and a b).
Proof. apply good_intro; [apply inw_land_l; [solve_w Hw|exact Ha]|]. intros i Hi. apply Z.land_spec. Qed.
Lemma ok_or : good w Or a b (i_or a b).
Proof. apply good_intro; [apply inw_lor; [solve_w Hw|exact Ha|exact Hb]|]. intros i Hi. apply Z.lor_spec. Qed.
Lemma ok_xor : good w Xor a b (i_xor a b).
Proof. apply good_intro; [apply inw_lxor; [solve_w Hw|exact Ha|exact Hb]|]. intros i Hi. apply Z.lxor_spec. Qed.
Lemma ok_sll : good w Sll a b (i_sll w a b).
Proof.
  apply good_intro; [apply wrap_inw, Hw|]. cbn [iop_rel].
  rewrite land_shmask, Z.shiftl_mul_pow2 by (assumption || apply mod_w_range, Hw). reflexivity.
Qed.
Lemma ok_srl : good w Srl a b (i_srl w a b).
Proof.
  unfold i_srl. rewrite land_shmask by assumption.
  apply good_intro; [apply inw_shiftr; [solve_w Hw|apply mod_w_range, Hw|exact Ha]|]. cbn [iop_rel].
  rewrite Z.shiftr_div_pow2 by (apply mod_w_range, Hw). reflexivity.
Qed.
Lemma ok_sra : good w Sra a b (i_sra w a b).
Proof.
  unfold i_sra. rewrite land_shmask, sgn_mod by assumption.
  apply good_intro; [apply wrap_inw, Hw|]. cbn [iop_rel].
  rewrite Z.shiftr_div_pow2 by (apply mod_w_range, Hw). reflexivity.
Qed.
Lemma land_not_fff x : Z.land x (Z.lnot 0xfff) = x - x mod 4096.
Proof.
  change 0xfff with (Z.ones 12). rewrite <- Z.ldiff_land, Z.ldiff_ones_r, Z.shiftl_mul_pow2, Z.shiftr_div_pow2 by lia.
  change (2 ^ 12) with 4096. pose proof (Z.div_mod x 4096 ltac:(lia)). lia.
Qed.
Lemma land_not_fff32 x : Z.land (u32 x) (wnot 32 0xfff) = wrap 32 (x - x mod 4096).
Proof.
  rewrite <- land_not_fff. apply Z.bits_inj'; intros i Hi. unfold u32.
  rewrite Z.land_spec, wnot_testbit, !wrap_testbit, Z.land_spec, Z.lnot_spec by lia.
  destruct (i <? 32), (Z.testbit x i); reflexivity.
Qed.
Lemma s32_not_fff x : Z.land (s32 x) (Z.lnot 0xfff) = sgn 32 (x - x mod 4096).
Proof.
  rewrite <- land_not_fff. unfold s32. apply Z.bits_inj'; intros i Hi.
  rewrite Z.land_spec, !sgn_testbit by lia. destruct (Z.ltb_spec i 32).
  - rewrite Z.land_spec; reflexivity.
  - rewrite Z.land_spec. f_equal. rewrite !Z.lnot_spec by lia.
    rewrite (inw_testbit_high 12 0xfff i) by (unfold inw; lia). reflexivity.
Qed.
Lemma ok_lui : good w Lui a b (i_lui w a).
Proof.
  unfold i_lui. destruct Hw as [->| ->]; cbn [Z.eqb Pos.eqb].
  - rewrite land_not_fff32. apply good_intro; [apply wrap_range; lia|]. cbn [iop_rel].
    symmetry; exact (wrap_sgn 32 _ ltac:(lia)).
  - rewrite s32_not_fff. apply good_intro; [apply wrap_range; lia|]. reflexivity.
Qed.
Lemma ok_auipc : good w Auipc a b (i_auipc w a b).
Proof.
  unfold i_auipc. destruct Hw as [->| ->]; cbn [Z.eqb Pos.eqb].
  - rewrite land_not_fff32. apply good_intro; [apply wrap_range; lia|]. cbn [iop_rel].
    change (?x mod 2 ^ 32) with (wrap 32 x).
    rewrite wrap_add_l, <- (wrap_add_r 32 b), wrap_sgn, wrap_add_r by lia. f_equal; lia.
  - rewrite s32_not_fff. apply good_intro; [apply wrap_range; lia|]. cbn [iop_rel]. unfold wrap; f_equal; lia.
Qed.
(** RV64 word forms. *)
Lemma schk_in o v x : - 2 ^ (v - 1) <= x < 2 ^ (v - 1) -> schk o v x = Some x.
Proof. intros H. unfold schk. destruct (Z.leb_spec (- 2 ^ (v - 1)) x), (Z.ltb_spec x (2 ^ (v - 1))); try lia. reflexivity. Qed.
Lemma schk_wrapv v x : 1 <= v -> schk Wrapv v x = Some (sgn v x).
Proof.
  intros Hv. destruct (Z.leb_spec (- 2 ^ (v - 1)) x) as [A|A], (Z.ltb_spec x (2 ^ (v - 1))) as [B|B];
    unfold schk; rewrite ?(proj2 (Z.leb_le _ _) A), ?(proj2 (Z.leb_gt _ _) A), ?(proj2 (Z.ltb_lt _ _) B), ?(proj2 (Z.ltb_ge _ _) B);
    cbn [andb]; try reflexivity.
  rewrite sgn_id by lia; reflexivity.
Qed.
Definition fits32 (x : Z) : Prop := - 2 ^ 31 <= x < 2 ^ 31.
Lemma schk32 o x : o = Wrapv \/ fits32 x -> schk o 32 x = Some (sgn 32 x).
Proof.
  intros [->|H]; [apply schk_wrapv; lia|].
  rewrite schk_in by exact H. rewrite sgn_id by (lia || exact H). reflexivity.
Qed.
End base.

Lemma word_result op a b x : iop_rel 64 op a b (sext32 x) -> good 64 op a b (Some (sext64 (sgn 32 x))).
Proof. intros H. apply good_intro; [apply wrap_range; lia|exact H]. Qed.
Lemma s32_mod x y : wrap 32 x = wrap 32 y -> sgn 32 x = sgn 32 y.
Proof. intros E; unfold sgn; rewrite E; reflexivity. Qed.

Lemma ok_addw o a b : o = Wrapv \/ fits32 (sgn 32 a + sgn 32 b) -> good 64 Addw a b (i_addw o a b).
Proof.
  intros H. unfold i_addw, s32. rewrite schk32 by exact H. cbn [bind]. apply word_result. cbn [iop_rel].
  apply sext_congr. apply sgn_add_wrap; lia.
Qed.
Lemma ok_subw o a b : o = Wrapv \/ fits32 (sgn 32 a - sgn 32 b) -> good 64 Subw a b (i_subw o a b).
Proof.
  intros H. unfold i_subw, s32. rewrite schk32 by exact H. cbn [bind]. apply word_result. cbn [iop_rel].
  apply sext_congr. apply sgn_sub_wrap; lia.
Qed.
Lemma ok_mulw o a b : o = Wrapv \/ fits32 (sgn 32 a * sgn 32 b) -> good 64 Mulw a b (m_mulw o a b).
Proof.
  intros H. unfold m_mulw, s32. rewrite schk32 by exact H. cbn [bind]. apply word_result. cbn [iop_rel].
  apply sext_congr. apply sgn_mul_wrap; lia.
Qed.
Lemma wok32 : wok 32. Proof. left; reflexivity. Qed.
Lemma wok64 : wok 64. Proof. right; reflexivity. Qed.
#[export] Hint Resolve wok32 wok64 : core.

Lemma ok_sllw a b : good 64 Sllw a b (i_sllw a b).
Proof.
  unfold i_sllw, s32. rewrite land_1f, (sgn_mod 32) by auto. apply word_result. cbn [iop_rel].
  pose proof (mod_w_range 32 b wok32). rewrite Z.shiftl_mul_pow2 by lia.
  apply sext_congr. rewrite <- (wrap_mul_l 32 (sgn 32 a)), wrap_sgn, wrap_mul_l by lia. reflexivity.
Qed.
Lemma ok_srlw a b : good 64 Srlw a b (i_srlw a b).
Proof.
  unfold i_srlw, u32. rewrite land_1f, (wrap_mod_small 32) by auto. apply word_result. cbn [iop_rel].
  pose proof (mod_w_range 32 b wok32). rewrite Z.shiftr_div_pow2 by lia. reflexivity.
Qed.
Lemma shiftr_sgn_range v x k : 1 <= v -> 0 <= k -> - 2 ^ (v - 1) <= Z.shiftr (sgn v x) k < 2 ^ (v - 1).
Proof.
  intros Hv Hk. pose proof (sgn_range v x Hv) as [A B]. rewrite Z.shiftr_div_pow2 by lia.
  pose proof (pow2_pos k Hk). pose proof (pow2_pos (v - 1) ltac:(lia)). split.
  - apply Z.div_le_lower_bound; [lia|]. nia.
  - apply Z.div_lt_upper_bound; [lia|]. nia.
Qed.
Lemma ok_sraw a b : good 64 Sraw a b (i_sraw a b).
Proof.
  unfold i_sraw, s32. rewrite land_1f, (sgn_mod 32) by auto.
  pose proof (mod_w_range 32 b wok32).
  rewrite <- (sgn_id 32 (Z.shiftr _ _)) by (try lia; apply shiftr_sgn_range; lia).
  apply word_result. cbn [iop_rel]. rewrite Z.shiftr_div_pow2 by lia. reflexivity.
Qed.

(** ** Multiplication and division. *)
Lemma prod_range w a b : wok w -> - 2 ^ (2 * w - 1) <= sgn w a * sgn w b < 2 ^ (2 * w - 1).
Proof.
  intros H. pose proof (sgn_range w a ltac:(solve_w H)). pose proof (sgn_range w b ltac:(solve_w H)).
  destruct H as [->| ->].
  - change (2 ^ (2 * 32 - 1)) with (2 ^ 63). change (2 ^ (32 - 1)) with (2 ^ 31) in *. nia.
  - change (2 ^ (2 * 64 - 1)) with (2 ^ 127). change (2 ^ (64 - 1)) with (2 ^ 63) in *. nia.
Qed.
Lemma ok_mul o w a b : wok w -> good w Mul a b (m_mul o w a b).
Proof.
  intros H. unfold m_mul. rewrite schk_in by (apply prod_range, H). cbn [bind].
  replace (2 ^ w - 1) with (Z.ones w) by (rewrite Z.ones_equiv; lia).
  rewrite <- wrap_land_ones, wrap_wrap, sgn_mul_wrap by solve_w H.
  apply good_intro; [apply wrap_inw, H|reflexivity].
Qed.
Lemma ok_mulh o w a b : wok w -> good w Mulh a b (m_mulh o w a b).
Proof.
  intros H. unfold m_mulh. rewrite schk_in by (apply prod_range, H). cbn [bind].
  apply good_intro; [apply wrap_inw, H|]. cbn [iop_rel]. rewrite Z.shiftr_div_pow2 by solve_w H. reflexivity.
Qed.
Lemma ok_mulhu w a b : wok w -> inw w a -> inw w b -> good w Mulhu a b (m_mulhu w a b).
Proof.
  intros H Ha Hb. unfold m_mulhu.
  assert (inw (2 * w) (a * b)) as P.
  { unfold inw in *. replace (2 * w) with (w + w) by lia. rewrite Z.pow_add_r by solve_w H. nia. }
  rewrite (wrap_id (2 * w)) by exact P. rewrite Z.shiftr_div_pow2 by solve_w H.
  assert (inw w (a * b / 2 ^ w)) as Q.
  { unfold inw in *. split; [apply Z.div_pos; [lia|apply pow2_pos; solve_w H]|].
    apply Z.div_lt_upper_bound; [apply pow2_pos; solve_w H|]. nia. }
  rewrite wrap_id by exact Q. apply good_intro; [exact Q|reflexivity].
Qed.
Lemma ok_mulhsu o w a b : wok w -> inw w a -> inw w b -> good w Mulhsu a b (m_mulhsu o w a b).
Proof.
  intros [->| ->] Ha Hb; unfold m_mulhsu; cbn [Z.eqb Pos.eqb].
  - unfold m_mulhsu_32. pose proof (sgn_range 32 a ltac:(lia)) as R. change (32 - 1) with 31 in R.
    rewrite wrap_mul_l, sgn_wrap by lia.
    rewrite (sgn_id 64) by (change (64 - 1) with 63; unfold inw in *; nia).
    apply good_intro; [apply wrap_range; lia|]. cbn [iop_rel]. rewrite Z.shiftr_div_pow2 by lia. reflexivity.
  - unfold m_mulhsu_64. pose proof (sgn_range 64 a ltac:(lia)) as R. change (64 - 1) with 63 in R.
    cbv zeta. destruct (Z.ltb_spec (sgn 64 a) 0).
    + rewrite schk_in by (change (128 - 1) with 127; lia). cbn [bind].
      rewrite (wrap_id 128 (- _)) by (unfold inw; lia).
      rewrite (wrap_id 128) by (unfold inw in *; nia).
      rewrite (sgn_id 128) by (change (128 - 1) with 127; unfold inw in *; nia).
      rewrite schk_in by (change (128 - 1) with 127; unfold inw in *; nia). cbn [bind].
      replace (- (- sgn 64 a * b)) with (sgn 64 a * b) by lia.
      apply good_intro; [apply wrap_range; lia|]. cbn [iop_rel]. rewrite Z.shiftr_div_pow2 by lia. reflexivity.
    + cbn [bind]. rewrite (wrap_id 128 (sgn 64 a)) by (unfold inw; lia).
      rewrite (wrap_id 128) by (unfold inw in *; nia).
      rewrite (sgn_id 128) by (change (128 - 1) with 127; unfold inw in *; nia).
      apply good_intro; [apply wrap_range; lia|]. cbn [iop_rel]. rewrite Z.shiftr_div_pow2 by lia. reflexivity.
Qed.
Lemma quot_range v a b : 1 <= v -> - 2 ^ (v - 1) <= a < 2 ^ (v - 1) -> b <> 0 ->
  ~ (b = -1 /\ a = - 2 ^ (v - 1)) -> - 2 ^ (v - 1) <= Z.quot a b < 2 ^ (v - 1).
Proof.
  intros Hv Ha Hb Hn. pose proof (pow2_pos (v - 1) ltac:(lia)) as P.
  assert (Z.abs (Z.quot a b) = Z.abs a / Z.abs b) as E.
  { rewrite <- Z.quot_abs, Z.quot_div_nonneg by lia. reflexivity. }
  destruct (Z.eq_dec (Z.abs b) 1) as [B|B].
  - assert (b = 1 \/ b = -1) as [->| ->] by lia.
    + rewrite Z.quot_1_r. lia.
    + replace (Z.quot a (-1)) with (- a); [lia|].
      replace (-1) with (- (1)) by reflexivity. rewrite Z.quot_opp_r, Z.quot_1_r by lia. reflexivity.
  - assert (Z.abs a / Z.abs b <= Z.abs a / 2) as L.
    { apply Z.div_le_compat_l; lia. }
    assert (Z.abs a / 2 < 2 ^ (v - 1)) as M.
    { apply Z.div_lt_upper_bound; lia. }
    lia.
Qed.
Lemma div_s_ok o v a b : 1 <= v -> - 2 ^ (v - 1) <= a < 2 ^ (v - 1) -> m_div_s o v a b = Some (div_spec v a b).
Proof.
  intros Hv Ha. unfold m_div_s, div_spec. destruct (Z.eqb_spec b 0); [reflexivity|].
  rewrite andb_comm. destruct (Z.eqb_spec a (- 2 ^ (v - 1))), (Z.eqb_spec b (-1)); cbn [andb];
    [congruence| | |]; (rewrite schk_in; [reflexivity|apply quot_range; [lia|lia|lia|lia]]).
Qed.
Lemma rem_s_ok o v a b : 1 <= v -> - 2 ^ (v - 1) <= a < 2 ^ (v - 1) -> m_rem_s o v a b = Some (rem_spec v a b).
Proof.
  intros Hv Ha. unfold m_rem_s, rem_spec. destruct (Z.eqb_spec b 0); [reflexivity|].
  rewrite andb_comm. destruct (Z.eqb_spec a (- 2 ^ (v - 1))), (Z.eqb_spec b (-1)); cbn [andb];
    [reflexivity| | |]; (rewrite schk_in; [reflexivity|apply quot_range; [lia|lia|lia|lia]]).
Qed.
Lemma ok_div o w a b : wok w -> good w Div a b (m_div o w a b).
Proof.
  intros H. unfold m_div. rewrite div_s_ok by (try apply sgn_range; solve_w H). cbn [bind].
  apply good_intro; [apply wrap_inw, H|reflexivity].
Qed.
Lemma ok_rem o w a b : wok w -> good w Rem a b (m_rem o w a b).
Proof.
  intros H. unfold m_rem. rewrite rem_s_ok by (try apply sgn_range; solve_w H). cbn [bind].
  apply good_intro; [apply wrap_inw, H|reflexivity].
Qed.
Lemma ok_divu w a b : wok w -> inw w a -> inw w b -> good w Divu a b (m_divu w a b).
Proof.
  intros H [] []. apply good_intro; [|reflexivity]. unfold inw. pose proof (pow2_pos w ltac:(solve_w H)).
  destruct (Z.eqb_spec b 0); [lia|]. split; [apply Z.div_pos; lia|].
  apply Z.div_lt_upper_bound; nia.
Qed.
Lemma ok_remu w a b : wok w -> inw w a -> inw w b -> good w Remu a b (m_remu w a b).
Proof.
  intros H [] []. apply good_intro; [|reflexivity]. unfold inw.
  destruct (Z.eqb_spec b 0); [lia|]. pose proof (Z.mod_pos_bound a b ltac:(lia)). lia.
Qed.
Lemma div_spec32 a b : fits32 a -> wrap 64 (div_spec 32 a b) = sext32 (div_spec 32 a b).
Proof.
  intros Ha. unfold sext32. change (?x mod 2 ^ 64) with (wrap 64 x). f_equal. symmetry. apply sgn_id; [lia|].
  unfold div_spec. change (32 - 1) with 31. unfold fits32 in Ha.
  destruct (Z.eqb_spec b 0); [lia|].
  destruct (Z.eqb_spec a (- 2 ^ 31)), (Z.eqb_spec b (-1)); cbn [andb];
    first [lia | apply (quot_range 32); [lia|change (32 - 1) with 31; lia|lia|change (32 - 1) with 31; lia]].
Qed.
Lemma rem_spec32 a b : fits32 a -> wrap 64 (rem_spec 32 a b) = sext32 (rem_spec 32 a b).
Proof.
  intros Ha. unfold sext32. change (?x mod 2 ^ 64) with (wrap 64 x). f_equal. symmetry. apply sgn_id; [lia|].
  unfold rem_spec. change (32 - 1) with 31. unfold fits32 in Ha.
  destruct (Z.eqb_spec b 0); [lia|].
  assert (Z.abs (Z.rem a b) <= Z.abs a) as L.
  { rewrite <- Z.rem_abs by lia. rewrite Z.rem_mod_nonneg by lia. apply Z.mod_le; lia. }
  pose proof (Z.rem_sign_nz a b ltac:(lia)) as S.
  destruct (Z.eqb_spec a (- 2 ^ 31)), (Z.eqb_spec b (-1)); cbn [andb]; try lia.
Qed.
Lemma ok_divw o a b : good 64 Divw a b (m_divw o a b).
Proof.
  unfold m_divw, s32. pose proof (sgn_range 32 a ltac:(lia)) as R.
  rewrite div_s_ok by (assumption || lia). cbn [bind]. unfold sext64. rewrite div_spec32 by exact R.
  apply good_intro; [apply inw64_sext|reflexivity].
Qed.
Lemma ok_remw o a b : good 64 Remw a b (m_remw o a b).
Proof.
  unfold m_remw, s32. pose proof (sgn_range 32 a ltac:(lia)) as R.
  rewrite rem_s_ok by (assumption || lia). cbn [bind]. unfold sext64. rewrite rem_spec32 by exact R.
  apply good_intro; [apply inw64_sext|reflexivity].
Qed.
Lemma ok_divuw a b : good 64 Divuw a b (m_divuw a b).
Proof.
  unfold m_divuw, u32, wrap. destruct (Z.eqb_spec (b mod 2 ^ 32) 0) as [E|E].
  - apply good_intro; [unfold inw; lia|]. cbn [iop_rel]. rewrite E. reflexivity.
  - apply word_result. cbn [iop_rel]. rewrite (proj2 (Z.eqb_neq _ _) E). reflexivity.
Qed.
Lemma ok_remuw a b : good 64 Remuw a b (m_remuw a b).
Proof.
  unfold m_remuw, u32. destruct (Z.eqb_spec (wrap 32 b) 0) as [E|E].
  - rewrite sgn_wrap by lia. apply word_result. cbn [iop_rel]. unfold wrap in E. rewrite E. reflexivity.
  - apply word_result. cbn [iop_rel]. unfold wrap in *. rewrite (proj2 (Z.eqb_neq _ _) E). reflexivity.
Qed.
