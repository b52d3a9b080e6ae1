(** Proofs about the integer instructions, part 3: the RV64 functions of
    riscv_b_instructions.cc and the statements for whole groups. *)
From Coq Require Import ZArith Bool List Lia.
From Verif Require Import Bits IntSpec IntModel IntProofs IntProofs2.
Import ListNotations.
Local Open Scope Z_scope.

Lemma set_low_full w old v : 0 <= w -> inw w old -> inw w v -> set_low w old v = v.
Proof.
  intros Hw [A B] Hv. unfold set_low. rewrite wrap_id by exact Hv. rewrite Z.div_small by lia. lia.
Qed.

(** ** riscv_b_instructions.cc. *)
Lemma okb_adduw a b : good 64 AddUw a b (b_adduw a b).
Proof.
  unfold b_adduw. rewrite land_u32, Z.add_comm. apply good_intro; [apply wrap_range; lia|reflexivity].
Qed.
Lemma okb_shadd n a b : 1 <= n <= 3 -> good 64 (ShAdd n) a b (b_shadd n a b).
Proof.
  intros Hn. unfold b_shadd. rewrite wrap_add_l, !wrap_sgn, wrap_add_r, Z.shiftl_mul_pow2 by lia.
  apply good_intro; [apply wrap_range; lia|]. cbn [iop_rel]. change (?x mod 2 ^ 64) with (wrap 64 x).
  rewrite <- (wrap_add_l 64 (wrap 64 a * 2 ^ n)), wrap_mul_l, wrap_add_l by lia. f_equal; lia.
Qed.
Lemma okb_shadduw n a b : 1 <= n <= 3 -> good 64 (ShAddUw n) a b (b_shadduw n a b).
Proof.
  intros Hn. unfold b_shadduw. rewrite wrap_add_l, Z.shiftl_mul_pow2, land_u32, Z.add_comm by lia.
  apply good_intro; [apply wrap_range; lia|reflexivity].
Qed.
Lemma okb_slliuw a b : 0 <= b < 64 -> good 64 SlliUw a b (b_slliuw a b).
Proof.
  intros Hb. unfold b_slliuw, s32. rewrite (sgn_id 32 b) by (change (32 - 1) with 31; lia).
  destruct (Z.leb_spec 0 b), (Z.ltb_spec b 64); try lia. cbn [andb].
  rewrite land_u32. change (?x mod 2 ^ 32) with (wrap 32 x). rewrite wrap_wrap_le, wrap_sgn, Z.shiftl_mul_pow2 by lia.
  apply good_intro; [apply wrap_range; lia|reflexivity].
Qed.
Lemma okb_xnor a b : inw 64 a -> good 64 Xnor a b (b_xnor a b).
Proof.
  intros Ha. apply good_intro; [apply inw_lxor; [lia|exact Ha|apply inw_wnot; lia]|]. intros i Hi.
  rewrite Z.lxor_spec, wnot_testbit by lia. destruct (Z.ltb_spec i 64); [|lia].
  destruct (Z.testbit a i), (Z.testbit b i); reflexivity.
Qed.
Lemma filter_none {A} (f : A -> bool) l : (forall x, In x l -> f x = false) -> filter f l = [].
Proof.
  induction l as [|x l IH]; intros H; cbn [filter]; [reflexivity|].
  rewrite (H x) by (left; reflexivity). apply IH. intros; apply H; right; assumption.
Qed.
Lemma okb_cpopw a b : good 64 Cpopw a b (b_cpopw a).
Proof.
  unfold b_cpopw. rewrite popcount_spec, land_u32.
  assert (ones_count 64 (a mod 2 ^ 32) = ones_count 32 a) as ->.
  { rewrite <- (ones_count_ext 32 (a mod 2 ^ 32) a) by (lia || (intros; apply (u32_bits a); lia)).
    unfold ones_count, zrange. change (Z.to_nat 64) with (Z.to_nat 32 + 32)%nat.
    rewrite zrange_from_app, filter_app, (filter_none _ (zrange_from (0 + _) _)), app_nil_r; [reflexivity|].
    intros x Hx. apply zrange_from_in in Hx. apply (inw_testbit_high 32); [apply wrap_range; lia|]. lia. }
  apply good_intro; [|reflexivity]. apply (small_inw 64 32); [auto|apply ones_count_range|]; lia.
Qed.
Lemma land_pow2_zero k x : 0 <= k -> (Z.land (2 ^ k) x =? 0) = negb (Z.testbit x k).
Proof.
  intros Hk. rewrite Z.land_comm. destruct (Z.testbit x k) eqn:E; cbn [negb].
  - apply Z.eqb_neq. intros F. assert (Z.testbit (Z.land x (2 ^ k)) k = true) as G.
    { rewrite Z.land_spec, E, Z.pow2_bits_true by lia. reflexivity. }
    rewrite F, Z.bits_0 in G. discriminate.
  - apply Z.eqb_eq. apply Z.bits_inj'; intros i Hi. rewrite Z.land_spec, Z.bits_0.
    destruct (Z.eq_dec i k) as [->|N]; [rewrite E; reflexivity|]. rewrite Z.pow2_bits_false by lia. apply andb_false_r.
Qed.
(** The masks used for sign extension from bit [k]. *)
Lemma sext_mask k a : 0 < k < 64 -> inw 64 a ->
  (if Z.land (2 ^ (k - 1)) (sgn 64 a) =? 0 then Z.land a (Z.ones k) else Z.lor a (Z.ones 64 - Z.ones k)) = sgn k a mod 2 ^ 64.
Proof.
  intros Hk Ha. change (?x mod 2 ^ 64) with (wrap 64 x).
  assert (forall i, 0 <= i -> Z.testbit (Z.ones 64 - Z.ones k) i = (k <=? i) && (i <? 64)) as M.
  { assert (Z.ones 64 - Z.ones k = Z.shiftl (Z.ones (64 - k)) k) as ->.
    { rewrite Z.shiftl_mul_pow2, !Z.ones_equiv by lia. replace 64 with ((64 - k) + k) at 1 by lia.
      rewrite Z.pow_add_r by lia. pose proof (pow2_pos k ltac:(lia)). lia. }
    intros i Hi. rewrite Z.shiftl_spec by lia. destruct (Z.leb_spec k i); cbn [andb].
    - rewrite Z.testbit_ones_nonneg by lia. destruct (Z.ltb_spec (i - k) (64 - k)), (Z.ltb_spec i 64); try lia; reflexivity.
    - apply Z.testbit_neg_r; lia. }
  rewrite land_pow2_zero, sgn_testbit by lia. destruct (Z.ltb_spec (k - 1) 64); [|lia].
  apply Z.bits_inj'; intros i Hi. rewrite wrap_testbit, sgn_testbit by lia.
  destruct (Z.testbit a (k - 1)) eqn:E; cbn [negb].
  - rewrite Z.lor_spec, M by lia. destruct (Z.ltb_spec i k), (Z.leb_spec k i), (Z.ltb_spec i 64); try lia; cbn [andb];
      rewrite ?orb_false_r, ?orb_true_r, ?E; try reflexivity.
    apply (inw_testbit_high 64); [exact Ha|lia].
  - rewrite Z.land_spec, Z.testbit_ones_nonneg by lia.
    destruct (Z.ltb_spec i k), (Z.ltb_spec i 64); try lia; cbn [andb]; rewrite ?andb_true_r, ?andb_false_r, ?E; reflexivity.
Qed.
Lemma okb_sexth a b : inw 64 a -> good 64 SextH a b (b_sexth a).
Proof.
  intros Ha. unfold b_sexth.
  pose proof (sext_mask 16 a ltac:(lia) Ha) as E.
  change (16 - 1) with 15 in E. change (Z.ones 16) with 0xffff in E. change (Z.ones 64 - 0xffff) with 0xffffffffffff0000 in E.
  rewrite E. apply good_intro; [apply (wrap_range 64); lia|reflexivity].
Qed.
Lemma okb_sextb a b : inw 64 a -> good 64 SextB a b (b_sextb a).
Proof.
  intros Ha. unfold b_sextb.
  pose proof (sext_mask 8 a ltac:(lia) Ha) as E.
  change (8 - 1) with 7 in E. change (Z.ones 8) with 0xff in E. change (Z.ones 64 - 0xff) with 0xffffffffffffff00 in E.
  rewrite E. apply good_intro; [apply (wrap_range 64); lia|reflexivity].
Qed.
Lemma okb_zextw a b : good 64 ZextW a b (b_zextw a).
Proof.
  unfold b_zextw. rewrite land_u32. apply good_intro; [|reflexivity].
  apply (inw_weaken 32); [lia|apply (wrap_range 32); lia].
Qed.
Lemma okb_zexth a b : good 64 ZextH a b (b_zexth a).
Proof.
  unfold b_zexth. change 0xffff with (Z.ones 16). rewrite Z.land_ones by lia. apply good_intro; [|reflexivity].
  apply (inw_weaken 16); [lia|apply (wrap_range 16); lia].
Qed.
Lemma b_sign32_spec v : inw 32 v -> b_sign32 v = sext64 (sgn 32 v).
Proof.
  intros Hv. unfold b_sign32. change 0x80000000 with (2 ^ 31). rewrite Z.land_comm, land_pow2_zero by lia.
  apply Z.bits_inj'; intros i Hi. unfold sext64. rewrite wrap_testbit, sgn_testbit by lia.
  change (32 - 1) with 31. destruct (Z.testbit v 31) eqn:E; cbn [negb].
  - change 0xffffffff00000000 with (Z.shiftl (Z.ones 32) 32). rewrite Z.lor_spec, Z.shiftl_spec by lia.
    destruct (Z.ltb_spec i 32).
    + rewrite (Z.testbit_neg_r _ (i - 32)) by lia. rewrite orb_false_r. destruct (Z.ltb_spec i 64); [reflexivity|lia].
    + rewrite Z.testbit_ones_nonneg, (inw_testbit_high 32 v i) by (assumption || lia). rewrite E. cbn [orb].
      destruct (Z.ltb_spec (i - 32) 32), (Z.ltb_spec i 64); try lia; reflexivity.
  - destruct (Z.ltb_spec i 32).
    + destruct (Z.ltb_spec i 64); [reflexivity|lia].
    + rewrite E, (inw_testbit_high 32 v i) by (assumption || lia). rewrite andb_false_r. reflexivity.
Qed.
Lemma okb_rolw a b : inw 64 b -> good 64 Rolw a b (b_rolw a b).
Proof.
  intros Hb. pose proof (ok_rolw a b) as G. unfold b_rolw, z_rolw in *.
  unfold u32 in G at 2. rewrite land_1f, (wrap_mod_small 32) in G by auto. rewrite land_1f.
  rewrite b_sign32_spec; [exact G|]. apply rotl_inw; [auto|apply u32_inw|apply Z.mod_pos_bound; lia].
Qed.
Lemma okb_rorw a b : inw 64 b -> good 64 Rorw a b (b_rorw a b).
Proof.
  intros Hb. pose proof (ok_rorw a b) as G. unfold b_rorw, z_rorw in *.
  unfold u32 in G at 2. rewrite land_1f, (wrap_mod_small 32) in G by auto. rewrite land_1f.
  rewrite b_sign32_spec; [exact G|]. apply rotr_inw; [auto|apply u32_inw|apply Z.mod_pos_bound; lia].
Qed.
Lemma mask_shift k : 0 <= k -> wrap 64 (Z.shiftl (wrap 64 (Z.shiftl 0xff (8 * k))) 8) = wrap 64 (Z.shiftl 0xff (8 * (k + 1))).
Proof.
  intros Hk. replace (8 * (k + 1)) with (8 * k + 8) by lia. rewrite <- Z.shiftl_shiftl by lia.
  rewrite !(Z.shiftl_mul_pow2 _ 8) by lia. apply wrap_mul_l.
Qed.
Lemma b_orcb_same n k a res : 0 <= k ->
  b_orcb_loop n k a res = orcb_loop 64 n a (wrap 64 (Z.shiftl 0xff (8 * k))) res.
Proof.
  revert k res; induction n as [|n IH]; intros k res Hk; cbn [b_orcb_loop orcb_loop]; [reflexivity|].
  cbv zeta. rewrite IH, mask_shift by lia. reflexivity.
Qed.
Lemma okb_orcb a b : good 64 Orcb a b (b_orcb a).
Proof. unfold b_orcb. rewrite b_orcb_same by lia. exact (ok_orcb 64 a b wok64). Qed.
Lemma put_byte_bits x k v i : 0 <= k < 8 -> 0 <= i < 64 ->
  Z.testbit (put_byte x k (Z.land v 0xff)) i = if i / 8 =? k then Z.testbit v (i - 8 * k) else Z.testbit x i.
Proof.
  intros Hk Hi. unfold put_byte. rewrite Z.lor_spec, Z.land_spec, wnot_testbit, ff_bit, Z.shiftl_spec by lia.
  destruct (Z.ltb_spec i 64); [|lia]. cbn [andb].
  pose proof (Z.div_mod i 8 ltac:(lia)). pose proof (Z.mod_pos_bound i 8 ltac:(lia)).
  destruct (Z.eqb_spec (i / 8) k); cbn [negb].
  - rewrite andb_false_r, land_ff_bit by lia. destruct (Z.ltb_spec (i - 8 * k) 8); [reflexivity|lia].
  - rewrite andb_true_r. destruct (Z.ltb_spec i (8 * k)).
    + rewrite (Z.testbit_neg_r _ (i - 8 * k)) by lia. apply orb_false_r.
    + rewrite land_ff_bit by lia. destruct (Z.ltb_spec (i - 8 * k) 8); [lia|]. apply orb_false_r.
Qed.
Lemma b_rev8_bits a n s out i : 0 <= s -> s + Z.of_nat n <= 8 -> 0 <= i < 64 ->
  Z.testbit (fold_left (fun out i => put_byte out (7 - i) (byte_of a i)) (zrange_from s n) out) i =
  if (s <=? 7 - i / 8) && (7 - i / 8 <? s + Z.of_nat n) then Z.testbit a (8 * (7 - i / 8) + i mod 8) else Z.testbit out i.
Proof.
  intros Hs; revert s Hs out; induction n as [|n IH]; intros s Hs out Hn Hi; cbn [zrange_from fold_left].
  - destruct (Z.leb_spec s (7 - i / 8)), (Z.ltb_spec (7 - i / 8) (s + Z.of_nat 0)); try lia; reflexivity.
  - rewrite IH by lia. clear IH. unfold byte_of. rewrite put_byte_bits by lia.
    pose proof (Z.div_mod i 8 ltac:(lia)). pose proof (Z.mod_pos_bound i 8 ltac:(lia)).
    destruct (Z.eqb_spec (i / 8) (7 - s)).
    + destruct (Z.leb_spec (s + 1) (7 - i / 8)), (Z.leb_spec s (7 - i / 8)), (Z.ltb_spec (7 - i / 8) (s + Z.of_nat (S n)));
        try lia. cbn [andb]. rewrite Z.shiftr_spec by lia. f_equal; lia.
    + destruct (Z.leb_spec (s + 1) (7 - i / 8)), (Z.leb_spec s (7 - i / 8)), (Z.ltb_spec (7 - i / 8) (s + Z.of_nat (S n))),
        (Z.ltb_spec (7 - i / 8) (s + 1 + Z.of_nat n)); try lia; reflexivity.
Qed.
Lemma put_byte_inw x k v : 0 <= k < 8 -> inw 64 x -> inw 64 (put_byte x k (Z.land v 0xff)).
Proof.
  intros Hk Hx. unfold put_byte. apply inw_lor; [lia|apply inw_land_l; [lia|exact Hx]|].
  split; [apply Z.shiftl_nonneg, Z.land_nonneg; lia|].
  change 0xff with (Z.ones 8). rewrite Z.land_ones, Z.shiftl_mul_pow2 by lia.
  pose proof (Z.mod_pos_bound v (2 ^ 8) ltac:(lia)). pose proof (pow2_pos (8 * k) ltac:(lia)).
  apply Z.lt_le_trans with (2 ^ 8 * 2 ^ (8 * k)); [nia|]. rewrite <- Z.pow_add_r by lia. apply Z.pow_le_mono_r; lia.
Qed.
Lemma b_rev8_inw a n s out : 0 <= s -> s + Z.of_nat n <= 8 -> inw 64 out ->
  inw 64 (fold_left (fun out i => put_byte out (7 - i) (byte_of a i)) (zrange_from s n) out).
Proof.
  intros Hs; revert s Hs out; induction n as [|n IH]; intros s Hs out Hn Ho; cbn [zrange_from fold_left]; [exact Ho|].
  apply IH; [lia|lia|]. apply put_byte_inw; [lia|exact Ho].
Qed.
Lemma okb_rev8 a b : good 64 Rev8 a b (b_rev8 a).
Proof.
  unfold b_rev8, zrange. apply good_intro.
  - apply b_rev8_inw; [lia|change (Z.of_nat (Z.to_nat 8)) with 8; lia|unfold inw; lia].
  - intros i Hi. rewrite b_rev8_bits by (change (Z.of_nat (Z.to_nat 8)) with 8; lia).
    change (Z.of_nat (Z.to_nat 8)) with 8.
    pose proof (Z.div_mod i 8 ltac:(lia)). pose proof (Z.mod_pos_bound i 8 ltac:(lia)).
    destruct (Z.leb_spec 0 (7 - i / 8)), (Z.ltb_spec (7 - i / 8) (0 + 8)); try lia. cbn [andb]. f_equal; lia.
Qed.

(** ** All instructions. *)
Ltac op_lemma := match goal with
  | |- good _ Add _ _ _ => apply ok_add
  | |- good _ Sub _ _ _ => apply ok_sub
  | |- good _ Slt _ _ _ => apply ok_slt
  | |- good _ Sltu _ _ _ => apply ok_sltu
  | |- good _ And _ _ _ => apply ok_and
  | |- good _ Or _ _ _ => apply ok_or
  | |- good _ Xor _ _ _ => apply ok_xor
  | |- good _ Sll _ _ _ => apply ok_sll
  | |- good _ Srl _ _ _ => apply ok_srl
  | |- good _ Sra _ _ _ => apply ok_sra
  | |- good _ Lui _ _ _ => apply ok_lui
  | |- good _ Auipc _ _ _ => apply ok_auipc
  | |- good _ Addw _ _ _ => apply ok_addw
  | |- good _ Subw _ _ _ => apply ok_subw
  | |- good _ Sllw _ _ _ => apply ok_sllw
  | |- good _ Srlw _ _ _ => apply ok_srlw
  | |- good _ Sraw _ _ _ => apply ok_sraw
  | |- good _ Mul _ _ _ => apply ok_mul
  | |- good _ Mulh _ _ _ => apply ok_mulh
  | |- good _ Mulhu _ _ _ => apply ok_mulhu
  | |- good _ Mulhsu _ _ _ => apply ok_mulhsu
  | |- good _ Div _ _ _ => apply ok_div
  | |- good _ Divu _ _ _ => apply ok_divu
  | |- good _ Rem _ _ _ => apply ok_rem
  | |- good _ Remu _ _ _ => apply ok_remu
  | |- good _ Mulw _ _ _ => apply ok_mulw
  | |- good _ Divw _ _ _ => apply ok_divw
  | |- good _ Divuw _ _ _ => apply ok_divuw
  | |- good _ Remw _ _ _ => apply ok_remw
  | |- good _ Remuw _ _ _ => apply ok_remuw
  | |- good _ AddUw _ _ _ => apply ok_adduw
  | |- good _ (ShAdd _) _ _ _ => apply ok_shadd
  | |- good _ (ShAddUw _) _ _ _ => apply ok_shadduw
  | |- good _ SlliUw _ _ _ => apply ok_slliuw
  | |- good _ Andn _ _ _ => apply ok_andn
  | |- good _ Orn _ _ _ => apply ok_orn
  | |- good _ Xnor _ _ _ => apply ok_xnor
  | |- good _ Not _ _ _ => apply ok_not
  | |- good _ Clz _ _ _ => apply ok_clz
  | |- good _ Clzw _ _ _ => apply ok_clzw
  | |- good _ Ctz _ _ _ => apply ok_ctz
  | |- good _ Ctzw _ _ _ => apply ok_ctzw
  | |- good _ Cpop _ _ _ => apply ok_cpop
  | |- good _ Cpopw _ _ _ => apply ok_cpopw
  | |- good _ Max _ _ _ => apply ok_max
  | |- good _ Maxu _ _ _ => apply ok_maxu
  | |- good _ Min _ _ _ => apply ok_min
  | |- good _ Minu _ _ _ => apply ok_minu
  | |- good _ SextB _ _ _ => apply ok_sextb
  | |- good _ SextH _ _ _ => apply ok_sexth
  | |- good _ ZextB _ _ _ => apply ok_zextb
  | |- good _ ZextH _ _ _ => apply ok_zexth
  | |- good _ Rol _ _ _ => apply ok_rol
  | |- good _ Rolw _ _ _ => apply ok_rolw
  | |- good _ Ror _ _ _ => apply ok_ror
  | |- good _ Rorw _ _ _ => apply ok_rorw
  | |- good _ Orcb _ _ _ => apply ok_orcb
  | |- good _ Rev8 _ _ _ => apply ok_rev8
  | |- good _ Clmul _ _ _ => apply ok_clmul
  | |- good _ Clmulh _ _ _ => apply ok_clmulh
  | |- good _ Bclr _ _ _ => apply ok_bclr
  | |- good _ Bext _ _ _ => apply ok_bext
  | |- good _ Binv _ _ _ => apply ok_binv
  | |- good _ Bset _ _ _ => apply ok_bset
  | |- good _ CzeroEqz _ _ _ => apply ok_eqz
  | |- good _ CzeroNez _ _ _ => apply ok_nez
  end.
Ltac b_lemma := match goal with
  | |- good _ AddUw _ _ _ => apply okb_adduw
  | |- good _ (ShAdd _) _ _ _ => apply okb_shadd
  | |- good _ (ShAddUw _) _ _ _ => apply okb_shadduw
  | |- good _ SlliUw _ _ _ => apply okb_slliuw
  | |- good _ Xnor _ _ _ => apply okb_xnor
  | |- good _ Cpopw _ _ _ => apply okb_cpopw
  | |- good _ SextB _ _ _ => apply okb_sextb
  | |- good _ SextH _ _ _ => apply okb_sexth
  | |- good _ ZextH _ _ _ => apply okb_zexth
  | |- good _ Rolw _ _ _ => apply okb_rolw
  | |- good _ Rorw _ _ _ => apply okb_rorw
  | |- good _ Orcb _ _ _ => apply okb_orcb
  | |- good _ Rev8 _ _ _ => apply okb_rev8
  | |- good _ ZextW _ _ _ => apply okb_zextw
  | _ => op_lemma
  end.

Lemma value_ok o w op a b :
  xlen_ok w -> in_xlen w op -> iop_args_ok op b -> inw w a -> inw w b -> op <> ZextW ->
  (op = Clmulr -> w = 32 -> Z.testbit b 31 = false) ->
  (o = Wrapv \/ no_word_overflow op a b) ->
  good w op a b (iop_value o w op a b).
Proof.
  intros Hw Hx Hargs Ha Hb Hz Hc Ho.
  assert (rv64_only op = true -> w = 64) as H64 by (intros E; destruct Hx as [|X]; congruence).
  assert (forall x, word_exact op a b = Some x -> o = Wrapv \/ fits32 x) as Hov.
  { intros x E. destruct Ho as [->|N]; [left; reflexivity|right; exact (N x E)]. }
  destruct op; cbn [iop_value iop_args_ok] in *; try (rewrite (H64 eq_refl) in *);
    try (specialize (Hov _ eq_refl));
    try congruence; try (op_lemma; assumption).
  destruct Hw as [->| ->]; [apply ok_clmulr32; [exact Ha|apply Hc; reflexivity]|apply ok_clmulr64; exact Ha].
Qed.
Definition exec_good (w : Z) (op : iop) (a b : Z) (v : option Z) : Prop :=
  exists r, v = Some r /\ rd_rel w op a b r.
Lemma exec_ok o w op a b rd :
  xlen_ok w -> in_xlen w op -> iop_args_ok op b -> inw w a -> inw w b -> inw w rd -> op <> ZextW -> op <> Cpopw ->
  (op = Clmulr -> w = 32 -> Z.testbit b 31 = false) ->
  (o = Wrapv \/ no_word_overflow op a b) ->
  exists r, iop_exec o w op a b rd = Some r /\ rd_rel w op a b r.
Proof.
  intros Hw Hx Hargs Ha Hb Hrd Hz Hp Hc Ho.
  destruct (value_ok o w op a b Hw Hx Hargs Ha Hb Hz Hc Ho) as (r & E & [R S]).
  exists r. split; [|split; assumption]. unfold iop_exec. rewrite E. cbn [bind].
  assert (result_bits w op = w) as -> by (destruct op; (reflexivity || congruence)).
  rewrite set_low_full; [reflexivity|destruct Hw; lia|exact Hrd|exact R].
Qed.
Lemma cpopw_exec o a b rd : inw 64 a -> inw 64 rd ->
  iop_exec o 64 Cpopw a b rd = Some (ones_count 32 a + 2 ^ 32 * (rd / 2 ^ 32)).
Proof.
  intros Ha Hrd. unfold iop_exec. cbn [iop_value]. unfold z_cpopw. cbn [bind result_bits]. rewrite popcount_spec.
  rewrite (ones_count_ext 32 _ a) by (lia || apply u32_bits). unfold set_low. rewrite wrap_id; [reflexivity|].
  pose proof (ones_count_range 32 a ltac:(lia)). unfold inw; lia.
Qed.
Lemma b_exec_ok op a b rd : in_b_file op = true -> iop_args_ok op b -> inw 64 a -> inw 64 b -> inw 64 rd ->
  exists r, b_exec op a b rd = Some r /\ rd_rel 64 op a b r.
Proof.
  intros Hin Hargs Ha Hb Hrd.
  assert (good 64 op a b (b_value op a b)) as (r & E & [R S]).
  { destruct op; try discriminate Hin; cbn [b_value iop_args_ok] in *;
      b_lemma; auto. }
  exists r. split; [|split; assumption]. unfold b_exec. rewrite E. cbn [bind].
  rewrite set_low_full; [reflexivity|lia|exact Hrd|exact R].
Qed.

(** ** Statements for groups of instructions. *)
Lemma base_alu_correct_main : forall w op a b rd,
  xlen_ok w -> in_xlen w op -> base_op op = true -> 0 <= a < 2 ^ w -> 0 <= b < 2 ^ w -> 0 <= rd < 2 ^ w ->
  exists r, iop_exec Wrapv w op a b rd = Some r /\ rd_rel w op a b r.
Proof.
  intros w op a b rd Hw Hx Hop Ha Hb Hrd. apply exec_ok; auto; destruct op; try discriminate; exact I.
Qed.
Lemma base_alu_iso_partial_main : forall w op a b rd,
  xlen_ok w -> in_xlen w op -> base_op op = true -> 0 <= a < 2 ^ w -> 0 <= b < 2 ^ w -> 0 <= rd < 2 ^ w ->
  no_word_overflow op a b ->
  exists r, iop_exec Iso w op a b rd = Some r /\ rd_rel w op a b r.
Proof.
  intros w op a b rd Hw Hx Hop Ha Hb Hrd Hn. apply exec_ok; auto; destruct op; try discriminate; exact I.
Qed.
Lemma muldiv_correct_main : forall w op a b rd,
  xlen_ok w -> in_xlen w op -> muldiv_op op = true -> 0 <= a < 2 ^ w -> 0 <= b < 2 ^ w -> 0 <= rd < 2 ^ w ->
  exists r, iop_exec Wrapv w op a b rd = Some r /\ rd_rel w op a b r.
Proof.
  intros w op a b rd Hw Hx Hop Ha Hb Hrd. apply exec_ok; auto; destruct op; try discriminate; exact I.
Qed.
Lemma muldiv_iso_partial_main : forall w op a b rd,
  xlen_ok w -> in_xlen w op -> muldiv_op op = true -> 0 <= a < 2 ^ w -> 0 <= b < 2 ^ w -> 0 <= rd < 2 ^ w ->
  (op = Mulw -> - 2 ^ 31 <= sgn 32 a * sgn 32 b < 2 ^ 31) ->
  exists r, iop_exec Iso w op a b rd = Some r /\ rd_rel w op a b r.
Proof.
  intros w op a b rd Hw Hx Hop Ha Hb Hrd Hn. apply exec_ok; auto; try (destruct op; try discriminate; exact I).
  right. intros x E. destruct op; try discriminate Hop; try discriminate E. injection E as <-. apply Hn; reflexivity.
Qed.
Lemma division_law_main : forall w a b, b <> 0 -> ~ (a = - 2 ^ (w - 1) /\ b = -1) ->
  a = b * div_spec w a b + rem_spec w a b /\ Z.abs (rem_spec w a b) < Z.abs b /\
  (rem_spec w a b = 0 \/ Z.sgn (rem_spec w a b) = Z.sgn a).
Proof.
  intros w a b Hb Hn. unfold div_spec, rem_spec. rewrite (proj2 (Z.eqb_neq b 0) Hb).
  assert ((a =? - 2 ^ (w - 1)) && (b =? -1) = false) as ->.
  { destruct (Z.eqb_spec a (- 2 ^ (w - 1))), (Z.eqb_spec b (-1)); cbn [andb]; try reflexivity.
    exfalso; apply Hn; split; assumption. }
  split; [apply Z.quot_rem; exact Hb|]. split; [apply Z.rem_bound_abs; exact Hb|].
  destruct (Z.eq_dec (Z.rem a b) 0) as [E|E]; [left; exact E|right; apply Z.rem_sign_nz; assumption].
Qed.
Lemma bitmanip_correct_partial_main : forall o w op a b rd,
  xlen_ok w -> in_xlen w op -> bitmanip_op op = true -> op <> Cpopw -> op <> ZextW -> iop_args_ok op b ->
  0 <= a < 2 ^ w -> 0 <= b < 2 ^ w -> 0 <= rd < 2 ^ w ->
  exists r, iop_exec o w op a b rd = Some r /\ rd_rel w op a b r.
Proof.
  intros o w op a b rd Hw Hx Hop Hc Hz Hargs Ha Hb Hrd. apply exec_ok; auto.
  - intros ->. discriminate Hop.
  - right. intros x E. destruct op; try discriminate Hop; discriminate E.
Qed.
Lemma clmul_correct_partial_main : forall o w op a b rd,
  xlen_ok w -> clmul_op op = true -> (op = Clmulr -> w = 32 -> Z.testbit b 31 = false) ->
  0 <= a < 2 ^ w -> 0 <= b < 2 ^ w -> 0 <= rd < 2 ^ w ->
  exists r, iop_exec o w op a b rd = Some r /\ rd_rel w op a b r.
Proof.
  intros o w op a b rd Hw Hop Hc Ha Hb Hrd. apply exec_ok; auto; try (destruct op; try discriminate; exact I).
  - right. destruct op; try discriminate Hop; reflexivity.
  - right. intros x E. destruct op; try discriminate Hop; discriminate E.
Qed.
Lemma rd_fully_defined_partial_main : forall o w op a b rd1 rd2,
  op <> Cpopw -> xlen_ok w -> in_xlen w op -> op <> ZextW -> iop_args_ok op b ->
  0 <= a < 2 ^ w -> 0 <= b < 2 ^ w -> 0 <= rd1 < 2 ^ w -> 0 <= rd2 < 2 ^ w ->
  iop_exec o w op a b rd1 = iop_exec o w op a b rd2.
Proof.
  intros o w op a b rd1 rd2 Hc Hw Hx Hz Hargs Ha Hb H1 H2.
  unfold iop_exec. destruct (iop_value o w op a b); [|reflexivity]. cbn [bind].
  assert (result_bits w op = w) as -> by (destruct op; (reflexivity || congruence)).
  unfold set_low. rewrite !Z.div_small by assumption. reflexivity.
Qed.
