(** Proofs about the integer instructions, part 2: Zba, Zbb, Zbc, Zbs, Zicond. *)
From Coq Require Import ZArith Bool List Lia.
From Verif Require Import Bits IntSpec IntModel IntProofs.
Import ListNotations.
Local Open Scope Z_scope.

(** ** Small facts. *)
Lemma low_bit_test b i : 0 <= i -> (Z.land (Z.shiftr b i) 1 =? 0) = negb (Z.testbit b i).
Proof.
  intros Hi. change 1 with (Z.ones 1). rewrite Z.land_ones by lia. change (2 ^ 1) with 2.
  rewrite Zmod_odd, <- Z.bit0_odd, Z.shiftr_spec by lia. cbn [Z.add].
  destruct (Z.testbit b i); reflexivity.
Qed.
Lemma one_bit w k i : 0 <= k < w -> 0 <= i -> Z.testbit (wrap w (Z.shiftl 1 k)) i = (i =? k).
Proof.
  intros Hk Hi. rewrite wrap_testbit, Z.shiftl_spec by lia.
  destruct (Z.eqb_spec i k) as [->|N].
  - rewrite Z.sub_diag. destruct (Z.ltb_spec k w); [reflexivity|lia].
  - destruct (Z.ltb_spec (i - k) 0).
    + rewrite Z.testbit_neg_r by lia. apply andb_false_r.
    + rewrite (inw_testbit_high 1 1) by (unfold inw; lia). apply andb_false_r.
Qed.
Lemma wnot_inw w x : wok w -> inw w (wnot w x).
Proof. intros; apply inw_wnot; solve_w H. Qed.
Lemma land_u32 a : Z.land a 0xffffffff = a mod 2 ^ 32.
Proof. change 0xffffffff with (Z.ones 32). apply Z.land_ones; lia. Qed.

(** ** Zba. *)
Lemma ok_adduw a b : good 64 AddUw a b (z_adduw a b).
Proof. unfold z_adduw. rewrite land_u32. apply good_intro; [apply wrap_range; lia|reflexivity]. Qed.
Lemma ok_shadd w n a b : wok w -> 1 <= n <= 3 -> good w (ShAdd n) a b (z_shadd w n a b).
Proof.
  intros H Hn. unfold z_shadd. rewrite wrap_add_r, Z.shiftl_mul_pow2 by lia.
  apply good_intro; [apply wrap_inw, H|reflexivity].
Qed.
Lemma ok_shadduw n a b : 1 <= n <= 3 -> good 64 (ShAddUw n) a b (z_shadduw n a b).
Proof.
  intros Hn. unfold z_shadduw. rewrite wrap_add_r, Z.shiftl_mul_pow2, land_u32 by lia.
  apply good_intro; [apply wrap_range; lia|reflexivity].
Qed.
Lemma ok_slliuw a b : 0 <= b < 64 -> good 64 SlliUw a b (z_slliuw a b).
Proof.
  intros Hb. unfold z_slliuw, u32. rewrite (wrap_id 32 b) by (unfold inw; lia).
  destruct (Z.ltb_spec b 64); [|lia].
  rewrite land_u32, Z.shiftl_mul_pow2 by lia. unfold wrap at 2. rewrite Z.mod_mod by lia.
  apply good_intro; [apply wrap_range; lia|reflexivity].
Qed.

(** ** Logic with negation. *)
Section logic.
Context (w a b : Z) (Hw : wok w) (Ha : inw w a) (Hb : inw w b).
Lemma ok_andn : good w Andn a b (z_andn w a b).
Proof.
  apply good_intro; [apply inw_land_l; [solve_w Hw|exact Ha]|]. intros i Hi.
  rewrite Z.land_spec, wnot_testbit by lia. destruct (Z.ltb_spec i w); [reflexivity|lia].
Qed.
Lemma ok_orn : good w Orn a b (z_orn w a b).
Proof.
  apply good_intro; [apply inw_lor; [solve_w Hw|exact Ha|apply wnot_inw, Hw]|]. intros i Hi.
  rewrite Z.lor_spec, wnot_testbit by lia. destruct (Z.ltb_spec i w); [reflexivity|lia].
Qed.
Lemma ok_xnor : good w Xnor a b (z_xnor w a b).
Proof.
  apply good_intro; [apply wnot_inw, Hw|]. intros i Hi.
  rewrite wnot_testbit, Z.lxor_spec by lia. destruct (Z.ltb_spec i w); [reflexivity|lia].
Qed.
Lemma ok_not : good w Not a b (z_not w a).
Proof.
  apply good_intro; [apply wnot_inw, Hw|]. intros i Hi.
  rewrite wnot_testbit by lia. destruct (Z.ltb_spec i w); [reflexivity|lia].
Qed.
Lemma ok_bclr : good w Bclr a b (z_bclr w a b).
Proof.
  unfold z_bclr. rewrite land_shmask by exact Hw. pose proof (mod_w_range w b Hw).
  apply good_intro; [apply inw_land_l; [lia|exact Ha]|]. intros i Hi.
  rewrite Z.land_spec, wnot_testbit, one_bit by lia. destruct (Z.ltb_spec i w); [reflexivity|lia].
Qed.
Lemma ok_binv : good w Binv a b (z_binv w a b).
Proof.
  unfold z_binv. rewrite land_shmask by exact Hw. pose proof (mod_w_range w b Hw).
  apply good_intro; [apply inw_lxor; [lia|exact Ha|apply wrap_inw, Hw]|]. intros i Hi.
  rewrite Z.lxor_spec, one_bit by lia. reflexivity.
Qed.
Lemma ok_bset : good w Bset a b (z_bset w a b).
Proof.
  unfold z_bset. rewrite land_shmask by exact Hw. pose proof (mod_w_range w b Hw).
  apply good_intro; [apply inw_lor; [lia|exact Ha|apply wrap_inw, Hw]|]. intros i Hi.
  rewrite Z.lor_spec, one_bit by lia. reflexivity.
Qed.
Lemma ok_bext : good w Bext a b (z_bext w a b).
Proof.
  unfold z_bext. rewrite land_shmask by exact Hw. pose proof (mod_w_range w b Hw) as R.
  assert (Z.land (Z.shiftr a (b mod w)) 1 = if Z.testbit a (b mod w) then 1 else 0) as E.
  { pose proof (low_bit_test a (b mod w) ltac:(lia)) as E.
    change 1 with (Z.ones 1) in *. rewrite Z.land_ones in * by lia. change (Z.ones 1) with 1. change (2 ^ 1) with 2 in *.
    pose proof (Z.mod_pos_bound (Z.shiftr a (b mod w)) 2 ltac:(lia)).
    destruct (Z.testbit a (b mod w)); cbn [negb] in E;
      [apply Z.eqb_neq in E|apply Z.eqb_eq in E]; lia. }
  rewrite E. apply good_intro; [apply inw_b2, Hw|reflexivity].
Qed.
Lemma ok_eqz : good w CzeroEqz a b (c_eqz a b).
Proof.
  apply good_intro; [|reflexivity]. pose proof (pow2_pos w ltac:(solve_w Hw)).
  destruct (b =? 0); [unfold inw; lia|exact Ha].
Qed.
Lemma ok_nez : good w CzeroNez a b (c_nez a b).
Proof.
  unfold c_nez. pose proof (pow2_pos w ltac:(solve_w Hw)).
  apply good_intro; cbn [iop_rel]; destruct (b =? 0); cbn [negb]; [exact Ha|unfold inw; lia|reflexivity|reflexivity].
Qed.
Lemma ok_max : good w Max a b (z_max w a b).
Proof.
  apply good_intro; [apply wrap_inw, Hw|]. cbn [iop_rel].
  destruct (Z.ltb_spec (sgn w a) (sgn w b)); [rewrite Z.max_r by lia|rewrite Z.max_l by lia]; reflexivity.
Qed.
Lemma ok_min : good w Min a b (z_min w a b).
Proof.
  apply good_intro; [apply wrap_inw, Hw|]. cbn [iop_rel].
  destruct (Z.ltb_spec (sgn w b) (sgn w a)); [rewrite Z.min_r by lia|rewrite Z.min_l by lia]; reflexivity.
Qed.
Lemma ok_maxu : good w Maxu a b (z_maxu a b).
Proof.
  unfold z_maxu. apply good_intro; cbn [iop_rel]; destruct (Z.ltb_spec a b); try assumption; lia.
Qed.
Lemma ok_minu : good w Minu a b (z_minu a b).
Proof.
  unfold z_minu. apply good_intro; cbn [iop_rel]; destruct (Z.ltb_spec b a); try assumption; lia.
Qed.
Lemma ok_sextb : good w SextB a b (z_sextb w a).
Proof. apply good_intro; [apply wrap_inw, Hw|reflexivity]. Qed.
Lemma ok_sexth : good w SextH a b (z_sexth w a).
Proof. apply good_intro; [apply wrap_inw, Hw|reflexivity]. Qed.
Lemma ok_zextb : good w ZextB a b (z_zextb a).
Proof.
  apply good_intro; [|reflexivity].
  apply (inw_weaken 8); [destruct Hw; lia|apply wrap_range; lia].
Qed.
Lemma ok_zexth : good w ZextH a b (z_zexth a).
Proof.
  apply good_intro; [|reflexivity].
  apply (inw_weaken 16); [destruct Hw; lia|apply wrap_range; lia].
Qed.
End logic.

(** ** Counting. *)
Lemma count_lead_spec n a : leading_zeros (Z.of_nat n) a (count_lead n a).
Proof.
  unfold leading_zeros. induction n as [|n IH].
  - cbn [count_lead]. ssplit; intros; lia.
  - cbn [count_lead]. destruct (Z.testbit a (Z.of_nat n)) eqn:E.
    + split; [lia|split; [intros; lia|]]. intros _. replace (Z.of_nat (S n) - 1 - 0) with (Z.of_nat n) by lia. exact E.
    + destruct IH as (A & B & C). split; [lia|split].
      * intros i Hi. destruct (Z.eq_dec i (Z.of_nat n)) as [->|N]; [exact E|apply B; lia].
      * intros L. replace (Z.of_nat (S n) - 1 - (1 + count_lead n a)) with (Z.of_nat n - 1 - count_lead n a) by lia.
        apply C; lia.
Qed.
Lemma count_trail_spec n s a : 0 <= count_trail n s a <= Z.of_nat n /\
  (forall i, s <= i < s + count_trail n s a -> Z.testbit a i = false) /\
  (count_trail n s a < Z.of_nat n -> Z.testbit a (s + count_trail n s a) = true).
Proof.
  revert s; induction n as [|n IH]; intros s.
  - cbn [count_trail]. ssplit; intros; lia.
  - cbn [count_trail]. destruct (Z.testbit a s) eqn:E.
    + split; [lia|split; [intros; lia|]]. intros _. rewrite Z.add_0_r. exact E.
    + destruct (IH (s + 1)) as (A & B & C). split; [lia|split].
      * intros i Hi. destruct (Z.eq_dec i s) as [->|N]; [exact E|apply B; lia].
      * intros L. rewrite Z.add_assoc. apply C; lia.
Qed.
Lemma pop_loop_spec n s a : 0 <= s ->
  pop_loop n (Z.shiftr a s) = Z.of_nat (length (filter (Z.testbit a) (zrange_from s n))).
Proof.
  revert s; induction n as [|n IH]; intros s Hs; cbn [pop_loop zrange_from filter length]; [reflexivity|].
  rewrite Z.shiftr_shiftr, IH by lia.
  pose proof (low_bit_test a s Hs) as L.
  change 1 with (Z.ones 1) in L. rewrite Z.land_ones in L by lia. change (2 ^ 1) with 2 in L.
  change 1 with (Z.ones 1) at 1. rewrite Z.land_ones by lia. change (2 ^ 1) with 2.
  pose proof (Z.mod_pos_bound (Z.shiftr a s) 2 ltac:(lia)).
  destruct (Z.testbit a s) eqn:E; cbn [negb] in L; [apply Z.eqb_neq in L|apply Z.eqb_eq in L]; cbn [length]; lia.
Qed.
Lemma popcount_spec w a : popcount w a = ones_count w a.
Proof. unfold popcount, ones_count, zrange. rewrite <- pop_loop_spec by lia. rewrite Z.shiftr_0_r. reflexivity. Qed.
Lemma filter_ext_range (f g : Z -> bool) s n : (forall i, s <= i < s + Z.of_nat n -> f i = g i) ->
  filter f (zrange_from s n) = filter g (zrange_from s n).
Proof.
  intros H. apply filter_ext_in. intros x Hx. apply zrange_from_in in Hx. apply H; lia.
Qed.
Lemma ones_count_ext w a b : 0 <= w -> (forall i, 0 <= i < w -> Z.testbit a i = Z.testbit b i) ->
  ones_count w a = ones_count w b.
Proof. intros Hw H. unfold ones_count, zrange. erewrite filter_ext_range; [reflexivity|]. intros; apply H; lia. Qed.
Lemma filter_len {A} (f : A -> bool) l : (length (filter f l) <= length l)%nat.
Proof. induction l as [|x l IH]; cbn; [lia|]. destruct (f x); cbn; lia. Qed.
Lemma zrange_from_len s n : length (zrange_from s n) = n.
Proof. revert s; induction n as [|n IH]; intros; cbn; [reflexivity|rewrite IH; reflexivity]. Qed.
Lemma ones_count_range w a : 0 <= w -> 0 <= ones_count w a <= w.
Proof.
  intros Hw. unfold ones_count, zrange. pose proof (filter_len (Z.testbit a) (zrange_from 0 (Z.to_nat w))).
  rewrite zrange_from_len in H. lia.
Qed.
Lemma small_inw w v n : wok w -> 0 <= n <= v -> v <= 64 -> inw w n.
Proof. intros [->| ->] H1 H2; unfold inw; lia. Qed.
Lemma leading_ext w a b n : (forall i, 0 <= i < w -> Z.testbit a i = Z.testbit b i) ->
  leading_zeros w a n -> leading_zeros w b n.
Proof. intros H (A & B & C). unfold leading_zeros; split; [lia|split; [intros; rewrite <- H by lia; apply B; lia|intros; rewrite <- H by lia; apply C; lia]]. Qed.
Lemma trailing_ext w a b n : (forall i, 0 <= i < w -> Z.testbit a i = Z.testbit b i) ->
  trailing_zeros w a n -> trailing_zeros w b n.
Proof. intros H (A & B & C). unfold trailing_zeros; split; [lia|split; [intros; rewrite <- H by lia; apply B; lia|intros; rewrite <- H by lia; apply C; lia]]. Qed.
Lemma countl_spec w a : 0 <= w -> leading_zeros w a (countl_zero w a).
Proof. intros H. unfold countl_zero. pose proof (count_lead_spec (Z.to_nat w) a) as X. rewrite Z2Nat.id in X by lia. exact X. Qed.
Lemma countr_spec w a : 0 <= w -> trailing_zeros w a (countr_zero w a).
Proof.
  intros H. unfold countr_zero. pose proof (count_trail_spec (Z.to_nat w) 0 a) as (A & B & C).
  rewrite Z2Nat.id in * by lia. unfold trailing_zeros. split; [lia|split; [intros; apply B; lia|intros; apply C; lia]].
Qed.
Lemma u32_bits a i : 0 <= i < 32 -> Z.testbit (u32 a) i = Z.testbit a i.
Proof. intros. unfold u32. rewrite wrap_testbit by lia. destruct (Z.ltb_spec i 32); [reflexivity|lia]. Qed.
Lemma wok_le w : wok w -> 0 <= w <= 64.
Proof. intros [->| ->]; lia. Qed.

Lemma ok_clz w a b : wok w -> good w Clz a b (z_clz w a).
Proof.
  intros H. pose proof (wok_le w H). pose proof (countl_spec w a ltac:(lia)) as S.
  apply good_intro; [|exact S]. destruct S as (R & _). apply (small_inw w w); lia || assumption.
Qed.
Lemma ok_ctz w a b : wok w -> good w Ctz a b (z_ctz w a).
Proof.
  intros H. pose proof (wok_le w H). pose proof (countr_spec w a ltac:(lia)) as S.
  apply good_intro; [|exact S]. destruct S as (R & _). apply (small_inw w w); lia || assumption.
Qed.
Lemma ok_clzw a b : good 64 Clzw a b (z_clzw a).
Proof.
  pose proof (countl_spec 32 (u32 a) ltac:(lia)) as S. apply good_intro.
  - destruct S as (R & _). apply (small_inw 64 32); lia || auto.
  - eapply leading_ext; [|exact S]. intros; apply u32_bits; lia.
Qed.
Lemma ok_ctzw a b : good 64 Ctzw a b (z_ctzw a).
Proof.
  pose proof (countr_spec 32 (u32 a) ltac:(lia)) as S. apply good_intro.
  - destruct S as (R & _). apply (small_inw 64 32); lia || auto.
  - eapply trailing_ext; [|exact S]. intros; apply u32_bits; lia.
Qed.
Lemma ok_cpop w a b : wok w -> good w Cpop a b (z_cpop w a).
Proof.
  intros H. pose proof (wok_le w H). unfold z_cpop. rewrite popcount_spec.
  apply good_intro; [|reflexivity]. apply (small_inw w w); [exact H|apply ones_count_range|]; lia.
Qed.
Lemma ok_cpopw a b : good 64 Cpopw a b (z_cpopw a).
Proof.
  unfold z_cpopw. rewrite popcount_spec. rewrite (ones_count_ext 32 _ a) by (lia || apply u32_bits).
  apply good_intro; [|reflexivity]. apply (small_inw 64 32); [auto|apply ones_count_range|]; lia.
Qed.

(** ** Rotations. *)
Lemma rotl_bits w a k i : wok w -> inw w a -> 0 <= k < w -> 0 <= i < w ->
  Z.testbit (rotl w a k) i = Z.testbit a ((i - k) mod w).
Proof.
  intros H Ha Hk Hi. unfold rotl. destruct (Z.eqb_spec k 0) as [->|N].
  - rewrite Z.sub_0_r, Z.mod_small by lia. reflexivity.
  - rewrite Z.lor_spec, wrap_testbit, Z.shiftl_spec, Z.shiftr_spec by lia.
    destruct (Z.ltb_spec i w); [|lia]. cbn [andb].
    destruct (Z.ltb_spec i k).
    + rewrite Z.testbit_neg_r by lia. cbn [orb].
      replace ((i - k) mod w) with (i + (w - k)); [reflexivity|].
      symmetry. rewrite <- (Z.mod_add _ 1) by lia. rewrite Z.mod_small by lia. lia.
    + rewrite (Z.mod_small (i - k)) by lia.
      rewrite (inw_testbit_high w a (i + (w - k))) by (assumption || lia). apply orb_false_r.
Qed.
Lemma rotr_bits w a k i : wok w -> inw w a -> 0 <= k < w -> 0 <= i < w ->
  Z.testbit (rotr w a k) i = Z.testbit a ((i + k) mod w).
Proof.
  intros H Ha Hk Hi. unfold rotr. destruct (Z.eqb_spec k 0) as [->|N].
  - rewrite Z.add_0_r, Z.mod_small by lia. reflexivity.
  - rewrite Z.lor_spec, wrap_testbit, Z.shiftl_spec, Z.shiftr_spec by lia.
    destruct (Z.ltb_spec i w); [|lia]. cbn [andb].
    destruct (Z.ltb_spec (i + k) w).
    + rewrite (Z.mod_small (i + k)) by lia. rewrite (Z.testbit_neg_r a (i - (w - k))) by lia. apply orb_false_r.
    + rewrite (inw_testbit_high w a (i + k)) by (assumption || lia). cbn [orb].
      f_equal. rewrite <- (Z.mod_add _ (-1)) by lia. rewrite Z.mod_small by lia. lia.
Qed.
Lemma rotl_inw w a k : wok w -> inw w a -> 0 <= k < w -> inw w (rotl w a k).
Proof.
  intros H Ha Hk. unfold rotl. destruct (k =? 0); [exact Ha|].
  apply inw_lor; [lia|apply wrap_inw, H|apply inw_shiftr; (lia || assumption)].
Qed.
Lemma rotr_inw w a k : wok w -> inw w a -> 0 <= k < w -> inw w (rotr w a k).
Proof.
  intros H Ha Hk. unfold rotr. destruct (k =? 0); [exact Ha|].
  apply inw_lor; [lia|apply inw_shiftr; (lia || assumption)|apply wrap_inw, H].
Qed.
Lemma ok_rol w a b : wok w -> inw w a -> good w Rol a b (z_rol w a b).
Proof.
  intros H Ha. unfold z_rol. rewrite land_shmask by exact H. pose proof (mod_w_range w b H).
  apply good_intro; [apply rotl_inw; assumption|]. intros i Hi. rewrite rotl_bits by assumption.
  f_equal. apply Zminus_mod_idemp_r.
Qed.
Lemma ok_ror w a b : wok w -> inw w a -> good w Ror a b (z_ror w a b).
Proof.
  intros H Ha. unfold z_ror. rewrite land_shmask by exact H. pose proof (mod_w_range w b H).
  apply good_intro; [apply rotr_inw; assumption|]. intros i Hi. rewrite rotr_bits by assumption.
  f_equal. apply Zplus_mod_idemp_r.
Qed.
Lemma u32_inw a : inw 32 (u32 a).
Proof. apply wrap_range; lia. Qed.
Lemma sext_bits x i : 0 <= i < 64 -> Z.testbit (sext64 (sgn 32 x)) i = Z.testbit x (Z.min i 31).
Proof.
  intros Hi. unfold sext64. rewrite wrap_testbit, sgn_testbit by lia.
  destruct (Z.ltb_spec i 64); [|lia]. cbn [andb]. f_equal. destruct (Z.ltb_spec i 32); lia.
Qed.
Lemma ok_rolw a b : good 64 Rolw a b (z_rolw a b).
Proof.
  unfold z_rolw. apply good_intro; [apply wrap_range; lia|]. intros i Hi.
  rewrite sext_bits by lia. unfold u32 at 2. rewrite land_1f, (wrap_mod_small 32) by auto.
  pose proof (mod_w_range 32 b wok32).
  rewrite rotl_bits by (auto; try apply u32_inw; lia). rewrite u32_bits by (apply Z.mod_pos_bound; lia).
  f_equal. apply Zminus_mod_idemp_r.
Qed.
Lemma ok_rorw a b : good 64 Rorw a b (z_rorw a b).
Proof.
  unfold z_rorw. apply good_intro; [apply wrap_range; lia|]. intros i Hi.
  rewrite sext_bits by lia. unfold u32 at 2. rewrite land_1f, (wrap_mod_small 32) by auto.
  pose proof (mod_w_range 32 b wok32).
  rewrite rotr_bits by (auto; try apply u32_inw; lia). rewrite u32_bits by (apply Z.mod_pos_bound; lia).
  f_equal. apply Zplus_mod_idemp_r.
Qed.

(** ** orc.b and rev8. *)
Lemma byte_zero a k : 0 <= k ->
  (Z.land a (Z.shiftl 0xff (8 * k)) =? 0) = (a / 2 ^ (8 * k) mod 256 =? 0).
Proof.
  intros Hk. assert (Z.land a (Z.shiftl 0xff (8 * k)) = Z.shiftl (a / 2 ^ (8 * k) mod 256) (8 * k)) as E.
  { rewrite <- Z.shiftr_div_pow2 by lia. change 256 with (2 ^ 8). rewrite <- Z.land_ones by lia. change (Z.ones 8) with 0xff.
    apply Z.bits_inj'; intros i Hi. rewrite Z.land_spec, !Z.shiftl_spec, Z.land_spec by lia.
    destruct (Z.ltb_spec i (8 * k)).
    - rewrite !(Z.testbit_neg_r _ (i - 8 * k)) by lia. apply andb_false_r.
    - rewrite Z.shiftr_spec by lia. replace (i - 8 * k + 8 * k) with i by lia. reflexivity. }
  rewrite E, Z.shiftl_mul_pow2 by lia. pose proof (pow2_pos (8 * k) ltac:(lia)).
  destruct (Z.eqb_spec (a / 2 ^ (8 * k) mod 256) 0) as [->|N]; [reflexivity|].
  apply Z.eqb_neq. nia.
Qed.
Lemma ff_bit k i : 0 <= k -> 0 <= i -> Z.testbit (Z.shiftl 0xff (8 * k)) i = (i / 8 =? k).
Proof.
  intros Hk Hi. rewrite Z.shiftl_spec by lia. change 0xff with (Z.ones 8).
  destruct (Z.ltb_spec i (8 * k)).
  - rewrite Z.testbit_neg_r by lia. symmetry; apply Z.eqb_neq.
    intros E. pose proof (Z.div_mod i 8 ltac:(lia)). pose proof (Z.mod_pos_bound i 8 ltac:(lia)). lia.
  - rewrite Z.testbit_ones_nonneg by lia. pose proof (Z.div_mod i 8 ltac:(lia)). pose proof (Z.mod_pos_bound i 8 ltac:(lia)).
    destruct (Z.ltb_spec (i - 8 * k) 8); symmetry; [apply Z.eqb_eq|apply Z.eqb_neq]; lia.
Qed.
(** Both orc.b loops as one loop over byte numbers. *)
Lemma orcb_loop_bits w n k a res i : 0 <= k -> 0 <= i < w -> 8 * (k + Z.of_nat n) <= w -> 
  Z.testbit (orcb_loop w n a (wrap w (Z.shiftl 0xff (8 * k))) res) i =
  Z.testbit res i || ((k <=? i / 8) && (i / 8 <? k + Z.of_nat n) && negb (a / 2 ^ (8 * (i / 8)) mod 256 =? 0)).
Proof.
  revert k res; induction n as [|n IH]; intros k res Hk Hi Hn; cbn [orcb_loop].
  - destruct (Z.leb_spec k (i / 8)), (Z.ltb_spec (i / 8) (k + Z.of_nat 0)); try lia; cbn [andb]; rewrite orb_false_r; reflexivity.
  - assert (wrap w (Z.shiftl 0xff (8 * k)) = Z.shiftl 0xff (8 * k)) as E.
    { apply wrap_id. split; [apply Z.shiftl_nonneg; lia|]. rewrite Z.shiftl_mul_pow2 by lia.
      apply Z.lt_le_trans with (2 ^ 8 * 2 ^ (8 * k)); [pose proof (pow2_pos (8 * k) ltac:(lia)); nia|].
      rewrite <- Z.pow_add_r by lia. apply Z.pow_le_mono_r; lia. }
    rewrite E, Z.shiftl_shiftl by lia. replace (8 * k + 8) with (8 * (k + 1)) by lia.
    rewrite IH, byte_zero by lia. clear IH.
    destruct (Z.eqb_spec (i / 8) k) as [Q|Q].
    + rewrite Q. destruct (Z.leb_spec (k + 1) k), (Z.leb_spec k k), (Z.ltb_spec k (k + Z.of_nat (S n))); try lia.
      cbn [andb]. destruct (_ =? 0); cbn [negb]; rewrite ?Z.lor_spec, ?ff_bit, ?Q, ?Z.eqb_refl by lia;
        rewrite ?orb_false_r, ?orb_true_r; reflexivity.
    + assert (Z.testbit (if a / 2 ^ (8 * k) mod 256 =? 0 then res else Z.lor res (Z.shiftl 255 (8 * k))) i = Z.testbit res i) as ->.
      { destruct (_ =? 0); [reflexivity|]. rewrite Z.lor_spec, ff_bit by lia.
        rewrite (proj2 (Z.eqb_neq _ _) Q). apply orb_false_r. }
      f_equal. f_equal.
      destruct (Z.leb_spec (k + 1) (i / 8)), (Z.leb_spec k (i / 8)), (Z.ltb_spec (i / 8) (k + 1 + Z.of_nat n)),
        (Z.ltb_spec (i / 8) (k + Z.of_nat (S n))); try lia; reflexivity.
Qed.
Lemma orcb_loop_inw w n a m res : 0 <= w -> inw w m -> inw w res -> inw w (orcb_loop w n a m res).
Proof.
  intros Hw; revert m res; induction n as [|n IH]; intros m res Hm Hr; cbn [orcb_loop]; [exact Hr|].
  apply IH; [apply wrap_range; lia|]. destruct (_ =? 0); [exact Hr|apply inw_lor; assumption].
Qed.
Lemma ok_orcb w a b : wok w -> good w Orcb a b (z_orcb w a).
Proof.
  intros H. unfold z_orcb.
  assert (0xff = wrap w (Z.shiftl 0xff (8 * 0))) as E by (destruct H as [->| ->]; reflexivity).
  apply good_intro.
  - apply orcb_loop_inw; [solve_w H|rewrite E; apply wrap_inw, H|]. destruct H as [->| ->]; unfold inw; lia.
  - intros i Hi. rewrite E at 1.
    assert (8 * (0 + Z.of_nat (Z.to_nat (w / 8))) <= w) by (destruct H as [->| ->]; vm_compute; discriminate).
    rewrite orcb_loop_bits by lia.
    rewrite Z.bits_0. cbn [orb].
    assert (0 <= i / 8 < w / 8) as [A B].
    { split; [apply Z.div_pos; lia|]. destruct H as [->| ->]; apply Z.div_lt_upper_bound; lia. }
    rewrite Z2Nat.id by lia.
    destruct (Z.leb_spec 0 (i / 8)), (Z.ltb_spec (i / 8) (0 + w / 8)); try lia; reflexivity.
Qed.

Lemma land_ff_bit a i : 0 <= i -> Z.testbit (Z.land a 0xff) i = (i <? 8) && Z.testbit a i.
Proof.
  intros Hi. change 0xff with (Z.ones 8). rewrite Z.land_spec, Z.testbit_ones_nonneg by lia. apply andb_comm.
Qed.
(** After the loop, bit i < 8n comes from byte n-1-i/8 of [a]; the rest is [res] shifted up. *)
Lemma rev8_loop_bits w n a res i : 0 <= i < w -> 8 * Z.of_nat n <= w ->
  Z.testbit (rev8_loop w n a res) i =
  if i <? 8 * Z.of_nat n then Z.testbit a (8 * (Z.of_nat n - 1 - i / 8) + i mod 8)
  else Z.testbit res (i - 8 * Z.of_nat n).
Proof.
  revert a res; induction n as [|n IH]; intros a res Hi Hn; cbn [rev8_loop].
  - destruct (Z.ltb_spec i (8 * Z.of_nat 0)); [lia|]. f_equal; lia.
  - rewrite IH by lia. pose proof (Z.div_mod i 8 ltac:(lia)). pose proof (Z.mod_pos_bound i 8 ltac:(lia)).
    destruct (Z.ltb_spec i (8 * Z.of_nat n)), (Z.ltb_spec i (8 * Z.of_nat (S n))); try lia.
    + rewrite Z.shiftr_spec by lia. f_equal; lia.
    + rewrite Z.lor_spec, wrap_testbit, Z.shiftl_spec, land_ff_bit by lia.
      rewrite (Z.testbit_neg_r res) by lia. rewrite andb_false_r. cbn [orb].
      destruct (Z.ltb_spec (i - 8 * Z.of_nat n) 8); [|lia]. cbn [andb]. f_equal; lia.
    + rewrite Z.lor_spec, wrap_testbit, Z.shiftl_spec, land_ff_bit by lia.
      destruct (Z.ltb_spec (i - 8 * Z.of_nat n) 8), (Z.ltb_spec (i - 8 * Z.of_nat n) w); try lia. cbn [andb].
      rewrite orb_false_r. f_equal; lia.
Qed.
Lemma rev8_loop_inw w n a res : 8 <= w -> inw w res -> inw w (rev8_loop w n a res).
Proof.
  intros Hw; revert a res; induction n as [|n IH]; intros a res Hr; cbn [rev8_loop]; [exact Hr|].
  apply IH. apply inw_lor; [lia|apply wrap_range; lia|].
  apply inw_land_r; [lia|]. apply (inw_weaken 8); [lia|]. unfold inw; lia.
Qed.
Lemma ok_rev8 w a b : wok w -> good w Rev8 a b (z_rev8 w a).
Proof.
  intros H. unfold z_rev8. apply good_intro.
  - apply rev8_loop_inw; [destruct H; lia|]. destruct H as [->| ->]; unfold inw; lia.
  - intros i Hi. 
    assert (8 * Z.of_nat (Z.to_nat (w / 8)) <= w) by (destruct H as [->| ->]; vm_compute; discriminate).
    rewrite rev8_loop_bits by lia.
    assert (8 * (w / 8) = w) as E by (destruct H as [->| ->]; reflexivity).
    rewrite Z2Nat.id by (destruct H as [->| ->]; cbn; lia).
    destruct (Z.ltb_spec i (8 * (w / 8))); [|lia]. f_equal; lia.
Qed.

(** ** Carry-less products. *)
Lemma clmul_loop_bits n s term b res i : 0 <= s -> 0 <= i ->
  Z.testbit (clmul_loop n s term b res) i =
  xorb (Z.testbit res i) (fold_right xorb false (map (fun j => Z.testbit b j && Z.testbit (term j) i) (zrange_from s n))).
Proof.
  revert s res; induction n as [|n IH]; intros s res Hs Hi; cbn [clmul_loop zrange_from map fold_right].
  - rewrite xorb_false_r; reflexivity.
  - rewrite IH, low_bit_test by lia.
    destruct (Z.testbit b s); cbn [negb andb]; rewrite ?Z.lxor_spec, ?xorb_assoc, ?xorb_false_l; reflexivity.
Qed.
Lemma clmul_loop_inw w n s term b res : 0 <= w -> 0 <= s -> (forall j, s <= j < s + Z.of_nat n -> inw w (term j)) -> inw w res ->
  inw w (clmul_loop n s term b res).
Proof.
  intros Hw; revert s res; induction n as [|n IH]; intros s res Hs Ht Hr; cbn [clmul_loop]; [exact Hr|].
  apply IH; [lia|intros; apply Ht; lia|]. destruct (_ =? 0); [exact Hr|]. apply inw_lxor; [lia|exact Hr|apply Ht; lia].
Qed.
Lemma map_ext_range {B} (f g : Z -> B) s n : (forall j, s <= j < s + Z.of_nat n -> f j = g j) ->
  map f (zrange_from s n) = map g (zrange_from s n).
Proof. intros H. apply map_ext_in. intros x Hx. apply zrange_from_in in Hx. apply H; lia. Qed.
Lemma zero_inw w : wok w -> inw w 0.
Proof. intros [->| ->]; unfold inw; lia. Qed.
Lemma ok_clmul w a b : wok w -> inw w a -> good w Clmul a b (z_clmul w a b).
Proof.
  intros H Ha. pose proof (wok_le w H). unfold z_clmul. apply good_intro.
  - apply clmul_loop_inw; [lia|lia|intros; apply wrap_inw, H|apply zero_inw, H].
  - intros i Hi. rewrite clmul_loop_bits by lia. rewrite Z.bits_0, xorb_false_l.
    unfold poly_coeff, xor_sum, zrange. f_equal. apply map_ext_range. intros j Hj.
    rewrite wrap_testbit, Z.shiftl_spec by lia. destruct (Z.ltb_spec i w); [reflexivity|lia].
Qed.
Lemma ok_clmulh w a b : wok w -> inw w a -> good w Clmulh a b (z_clmulh w a b).
Proof.
  intros H Ha. pose proof (wok_le w H). pose proof (wok_pos w H). unfold z_clmulh. apply good_intro.
  - apply clmul_loop_inw; [lia|lia|intros; apply inw_shiftr; (lia || assumption)|apply zero_inw, H].
  - intros i Hi. rewrite clmul_loop_bits by lia. rewrite Z.bits_0, xorb_false_l.
    unfold poly_coeff, xor_sum, zrange.
    replace (Z.to_nat w) with (S (Z.to_nat (w - 1))) by lia. cbn [zrange_from map fold_right].
    rewrite (inw_testbit_high w a (i + w - 0)) by (assumption || lia). rewrite andb_false_r, xorb_false_l.
    f_equal. apply map_ext_range. intros j Hj. rewrite Z.shiftr_spec by lia. do 2 f_equal. lia.
Qed.
Lemma zrange_from_app s n m : zrange_from s (n + m) = zrange_from s n ++ zrange_from (s + Z.of_nat n) m.
Proof.
  revert s; induction n as [|n IH]; intros s; cbn [zrange_from plus app].
  - f_equal; lia.
  - rewrite IH. do 3 f_equal. lia.
Qed.
Lemma ok_clmulr64 a b : inw 64 a -> good 64 Clmulr a b (z_clmulr 64 a b).
Proof.
  intros Ha. unfold z_clmulr. cbn [Z.eqb Pos.eqb]. apply good_intro.
  - apply clmul_loop_inw; [lia|lia|intros; apply inw_shiftr; (lia || assumption)|unfold inw; lia].
  - intros i Hi. rewrite clmul_loop_bits by lia. rewrite Z.bits_0, xorb_false_l.
    unfold poly_coeff, xor_sum, zrange. f_equal. apply map_ext_range. intros j Hj.
    rewrite Z.shiftr_spec by lia. do 2 f_equal. lia.
Qed.
(** RV32: the last term (j = 31) is missing, harmless only when bit 31 of rs2 is clear. *)
Lemma ok_clmulr32 a b : inw 32 a -> Z.testbit b 31 = false -> good 32 Clmulr a b (z_clmulr 32 a b).
Proof.
  intros Ha Hb. unfold z_clmulr. cbn [Z.eqb Pos.eqb]. apply good_intro.
  - apply clmul_loop_inw; [lia|lia|intros; apply inw_shiftr; (lia || assumption)|unfold inw; lia].
  - intros i Hi. rewrite clmul_loop_bits by lia. rewrite Z.bits_0, xorb_false_l.
    unfold poly_coeff, xor_sum, zrange.
    change (Z.to_nat 32) with (Z.to_nat (32 - 1) + 1)%nat. rewrite zrange_from_app, map_app, fold_right_app.
    cbn [zrange_from map fold_right]. change (0 + Z.of_nat (Z.to_nat (32 - 1))) with 31.
    rewrite Hb. cbn [andb xorb]. f_equal. apply map_ext_range. intros j Hj.
    rewrite Z.shiftr_spec by lia. do 2 f_equal. lia.
Qed.
