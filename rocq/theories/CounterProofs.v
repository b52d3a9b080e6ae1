From Coq Require Import ZArith Bool List Lia.
From Verif Require Import Bits CsrSpec CounterSpec CounterModel.
Import ListNotations.
Local Open Scope Z_scope.

Lemma c_get_set w ev v : 0 <= w -> c_get w ev (c_set w ev v) = wrap w v.
Proof.
  intros Hw. unfold c_get, c_set. rewrite wrap_add_r.
  replace (wrap w ev + (wrap w v - wrap w ev)) with (wrap w v) by lia. apply wrap_wrap; assumption.
Qed.
Lemma c_get_norm w ev off : c_get w ev off = wrap w (ev + off).
Proof. unfold c_get. apply wrap_add_l. Qed.
Lemma c_get_events w ev off n : 0 <= w <= 64 ->
  c_get w (wrap 64 (ev + n)) off = wrap w (c_get w ev off + n).
Proof.
  intros Hw. rewrite !c_get_norm. rewrite wrap_add_l.
  rewrite <- (wrap_add_l w (wrap 64 (ev + n))). rewrite (wrap_wrap_le w 64) by lia. rewrite wrap_add_l.
  f_equal. lia.
Qed.

Lemma wnot_ones w x : 0 <= w -> inw w x -> Z.land x (wnot w (Z.ones w)) = 0.
Proof.
  intros Hw Hx. apply Z.bits_inj'. intros i Hi. bnorm. rewrite Z.testbit_ones_nonneg by lia.
  destruct (i <? w); cbn; rewrite ?andb_false_r; reflexivity.
Qed.

Lemma c_access_get w ev off o : 0 <= w ->
  c_get w ev (c_access w ev off o) = apply_op w (c_get w ev off) o.
Proof.
  intros Hw. pose proof (wrap_range w (wrap w ev + off) Hw) as Hr. fold (c_get w ev off) in Hr.
  assert (forall v, wrap w (Z.lor (Z.land v (Z.ones w)) (Z.land (c_get w ev off) (wnot w (Z.ones w)))) = wrap w v) as E.
  { intros v. rewrite wnot_ones, Z.lor_0_r, <- wrap_land_ones, wrap_wrap by assumption. reflexivity. }
  destruct o; cbn [c_access apply_op]; rewrite c_get_set, E by assumption; try reflexivity.
  apply wrap_eq_bits; [assumption|]. intros i Hi. bnorm. replace (i <? w) with true by lia. reflexivity.
Qed.

Lemma map_upd {A B} (g : A -> B) (f : A -> A) (f' : B -> B) k l :
  (forall x, g (f x) = f' (g x)) -> map g (upd k f l) = upd k f' (map g l).
Proof.
  intros H. revert k; induction l as [|x l IH]; intros [|k]; cbn; [reflexivity..| |]; rewrite ?H, ?IH; reflexivity.
Qed.

Lemma ctr_step_refines w s o : 0 <= w <= 64 ->
  ctr_vals w (ctr_step w s o) = ctr_spec_step w (ctr_vals w s) o.
Proof.
  intros Hw. destruct o as [n|k o]; cbn [ctr_step ctr_spec_step]; unfold ctr_vals; cbn [ct_ev ct_offs].
  - rewrite map_map. apply map_ext. intros off. apply c_get_events. assumption.
  - apply map_upd. intros off. apply c_access_get. lia.
Qed.
Lemma ctr_run_refines w s ops : 0 <= w <= 64 ->
  ctr_vals w (fold_left (ctr_step w) ops s) = fold_left (ctr_spec_step w) ops (ctr_vals w s).
Proof.
  intros Hw. revert s; induction ops as [|o ops IH]; intros s; [reflexivity|].
  cbn [fold_left]. rewrite IH, ctr_step_refines by assumption. reflexivity.
Qed.

(** Events only come from the simulator. *)
Fixpoint count_events (ops : list ctr_op) : Z :=
  match ops with [] => 0 | Events n :: ops' => n + count_events ops' | _ :: ops' => count_events ops' end.
Lemma ctr_run_events w s ops : inw 64 (ct_ev s) ->
  ct_ev (fold_left (ctr_step w) ops s) = wrap 64 (ct_ev s + count_events ops).
Proof.
  revert s; induction ops as [|[n|k o] ops IH]; intros s H; cbn [fold_left count_events].
  - rewrite Z.add_0_r, wrap_id by assumption. reflexivity.
  - rewrite IH by (cbn; apply wrap_range; lia). cbn [ctr_step ct_ev]. rewrite wrap_add_l. f_equal; lia.
  - rewrite IH by exact H. reflexivity.
Qed.

(** Performance counters. *)
Lemma pc_law w ev v n : 0 <= w <= 64 ->
  c_get w (wrap 64 (ev + n)) (pc_set w ev v) = wrap w (v + n - 1).
Proof.
  intros Hw. rewrite c_get_events by assumption. unfold pc_set. rewrite c_get_norm, wrap_add_r.
  unfold c_set. rewrite wrap_add_l.
  replace (ev + (wrap w (wrap w v - wrap w ev) - 1) + n) with (wrap w (wrap w v - wrap w ev) + (ev + n - 1)) by lia.
  rewrite wrap_add_l. replace (wrap w v - wrap w ev + (ev + n - 1)) with (wrap w v + (n - 1) + (ev - wrap w ev)) by lia.
  rewrite <- wrap_add_r. rewrite wrap_sub_r. replace (ev - ev) with 0 by lia.
  replace (wrap w 0) with 0 by (unfold wrap; rewrite Z.mod_0_l by (apply Z.pow_nonzero; lia); reflexivity).
  rewrite Z.add_0_r, wrap_add_l. f_equal; lia.
Qed.

(** ** The RV32 pair *)
Definition pair_wf (p : pair) : Prop := inw 64 (pr_ev p) /\ inw 32 (pr_lo p) /\ inw 64 (pr_hi p).

Lemma lor_disjoint_add a b : inw 32 b -> Z.lor (Z.shiftl a 32) b = a * 2 ^ 32 + b.
Proof.
  intros Hb. assert (Z.land (Z.shiftl a 32) b = 0) as E.
  { apply Z.bits_inj'. intros i Hi. bnorm. destruct (Z_lt_dec i 32).
    - rewrite Z.testbit_neg_r by lia. reflexivity.
    - rewrite (inw_testbit_high 32 b i) by (assumption || lia). apply andb_false_r. }
  rewrite <- Z.lxor_lor by assumption. rewrite <- Z.add_nocarry_lxor by assumption.
  rewrite Z.shiftl_mul_pow2 by lia. reflexivity.
Qed.

Lemma shl_wrap h : wrap 64 (Z.shiftl h 32) = Z.shiftl (wrap 32 h) 32.
Proof.
  apply Z.bits_inj'. intros i Hi. bnorm. destruct (Z_lt_dec i 32).
  - rewrite !Z.testbit_neg_r by lia. rewrite !andb_false_r. reflexivity.
  - f_equal. lia.
Qed.

Ltac p64 := change (2 ^ 64) with 18446744073709551616 in *; change (2 ^ 32) with 4294967296 in *.
Ltac Zify.zify_post_hook ::= Z.div_mod_to_equations.

(** The value shown is event counter + (hi offset : low offset), modulo 2^64. *)
Lemma pair_val_eq p : pair_wf p ->
  pair_val p = wrap 64 (pr_ev p + (wrap 32 (pr_hi p) * 2 ^ 32 + pr_lo p)).
Proof.
  intros (He & Hl & Hh). unfold pair_val, pair_high, pair_low.
  rewrite shl_wrap, lor_disjoint_add by assumption.
  rewrite Z.shiftr_div_pow2 by lia. rewrite c_get_norm.
  unfold wrap, inw in *. p64. lia.
Qed.
Lemma pair_val_range p : pair_wf p -> inw 64 (pair_val p).
Proof. intros H. rewrite pair_val_eq by assumption. apply wrap_range; lia. Qed.
Lemma pair_low_val p : pair_low p = wrap 32 (pair_val p).
Proof.
  unfold pair_val, pair_low. pose proof (wrap_range 32 (wrap 32 (pr_ev p) + pr_lo p) ltac:(lia)) as H.
  fold (c_get 32 (pr_ev p) (pr_lo p)) in H. unfold wrap, inw in *. p64. lia.
Qed.
Lemma pair_high_val p : pair_high p = pair_val p / 2 ^ 32.
Proof.
  unfold pair_val, pair_low. pose proof (wrap_range 32 (wrap 32 (pr_ev p) + pr_lo p) ltac:(lia)) as H.
  fold (c_get 32 (pr_ev p) (pr_lo p)) in H. unfold wrap, inw in *. p64. lia.
Qed.

Lemma pair_step_wf p o : pair_wf p -> pair_wf (pair_step p o).
Proof.
  intros (He & Hl & Hh). destruct o; unfold pair_wf; cbn [pair_step pr_ev pr_lo pr_hi]; ssplit; try assumption;
    apply wrap_range; lia.
Qed.

Lemma pair_events_refines p n : pair_wf p ->
  pair_val (pair_step p (PEvents n)) = pair_spec_step (pair_val p) (PEvents n).
Proof.
  intros H. rewrite !pair_val_eq; [|assumption|apply pair_step_wf; assumption]. cbn [pair_step pr_ev pr_lo pr_hi pair_spec_step].
  rewrite !wrap_add_l. f_equal. lia.
Qed.
Lemma high_offset_law ev lo v : inw 64 ev -> inw 32 lo ->
  wrap 64 (ev + (wrap 32 (high_offset ev lo v) * 2 ^ 32 + lo)) = wrap 32 v * 2 ^ 32 + wrap 32 (ev + lo).
Proof.
  intros He Hl. unfold high_offset. rewrite Z.shiftr_div_pow2 by lia.
  rewrite (wrap_wrap_le 32 64) by lia.
  destruct (Z.leb_spec 0x100000000 (wrap 32 ev + lo)); unfold wrap, inw in *; p64; lia.
Qed.
Lemma pair_write_high_refines p v : pair_wf p ->
  pair_val (pair_step p (PWriteHigh v)) = pair_spec_step (pair_val p) (PWriteHigh v).
Proof.
  intros H. rewrite !pair_val_eq; [|assumption|apply pair_step_wf; assumption]. cbn [pair_step pr_ev pr_lo pr_hi pair_spec_step].
  destruct H as (He & Hl & Hh). rewrite high_offset_law by assumption.
  rewrite (wrap_wrap_le 32 64) by lia. f_equal.
  unfold wrap; p64; lia.
Qed.
(** A low write is exact on the low half; the high half may move by the carry. *)
Lemma pair_write_low p v : pair_wf p ->
  pair_low (pair_step p (PWriteLow v)) = wrap 32 v /\
  (let carry lo := (if 2 ^ 32 <=? wrap 32 (pr_ev p) + lo then 1 else 0) in
   pair_high (pair_step p (PWriteLow v)) =
   wrap 32 (pair_high p + carry (pr_lo (pair_step p (PWriteLow v))) - carry (pr_lo p))).
Proof.
  intros H. split.
  - unfold pair_low. cbn [pair_step pr_ev pr_lo]. apply c_get_set; lia.
  - cbn zeta. rewrite !pair_high_val. rewrite !pair_val_eq; [|assumption|apply pair_step_wf; assumption].
    pose proof (pair_step_wf p (PWriteLow v) H) as (He' & Hl' & Hh').
    destruct H as (He & Hl & Hh). cbn [pair_step pr_ev pr_lo pr_hi] in *.
    set (lo' := c_set 32 (pr_ev p) v) in *. clearbody lo'.
    destruct (Z.leb_spec (2 ^ 32) (wrap 32 (pr_ev p) + lo')), (Z.leb_spec (2 ^ 32) (wrap 32 (pr_ev p) + pr_lo p));
      unfold wrap, inw in *; p64; lia.
Qed.

Lemma pair_low_then_high p L n H m : pair_wf p ->
  pair_val (fold_left pair_step [PWriteLow L; PEvents n; PWriteHigh H; PEvents m] p) =
  wrap 64 (wrap 32 H * 2 ^ 32 + wrap 32 (L + n) + m).
Proof.
  intros Hp. cbn [fold_left].
  set (p1 := pair_step p (PWriteLow L)). assert (pair_wf p1) as H1 by (apply pair_step_wf; assumption).
  set (p2 := pair_step p1 (PEvents n)). assert (pair_wf p2) as H2 by (apply pair_step_wf; assumption).
  rewrite pair_events_refines by (apply pair_step_wf; assumption).
  rewrite pair_write_high_refines by assumption. cbn [pair_spec_step].
  f_equal. f_equal. f_equal. unfold p2. rewrite pair_events_refines by assumption. cbn [pair_spec_step].
  rewrite (wrap_wrap_le 32 64) by lia. rewrite <- wrap_add_l, <- pair_low_val.
  unfold p1. destruct (pair_write_low p L Hp) as [E _]. rewrite E. apply wrap_add_l.
Qed.

(** Histories without low writes. *)
Definition no_low (o : pair_op) : bool := match o with PWriteLow _ => false | _ => true end.
Lemma pair_run_no_low p ops : pair_wf p -> forallb no_low ops = true ->
  pair_val (fold_left pair_step ops p) = fold_left pair_spec_step ops (pair_val p).
Proof.
  revert p; induction ops as [|o ops IH]; intros p H Hn; [reflexivity|].
  cbn [forallb] in Hn. apply andb_prop in Hn. destruct Hn as [Ho Hn]. cbn [fold_left].
  rewrite IH by (assumption || apply pair_step_wf; assumption). f_equal.
  destruct o; [apply pair_events_refines|discriminate|apply pair_write_high_refines]; assumption.
Qed.

(** Performance pair: writing the high half then n >= 1 events. *)
Lemma ppair_write_high p v : pair_wf p ->
  pair_val (ppair_step p (PWriteHigh v)) = wrap 64 (wrap 32 v * 2 ^ 32 + wrap 32 (pair_val p) - 1) /\
  pair_wf (ppair_step p (PWriteHigh v)).
Proof.
  intros H.
  assert (pair_wf (ppair_step p (PWriteHigh v))) as Hw.
  { destruct H as (He & Hl & Hh). unfold pair_wf; cbn [ppair_step pr_ev pr_lo pr_hi]; ssplit; try assumption.
    - apply wrap_range; lia.
    - destruct (pr_lo p =? 0); apply wrap_range; lia. }
  split; [|assumption]. rewrite !pair_val_eq by assumption.
  destruct H as (He & Hl & Hh). cbn [ppair_step pr_ev pr_lo pr_hi].
  pose proof (high_offset_law (pr_ev p) (pr_lo p) v He Hl) as E.
  set (hi := high_offset (pr_ev p) (pr_lo p) v) in *.
  rewrite (wrap_wrap_le 32 64) by lia.
  replace (wrap 32 (pr_ev p + (wrap 32 (pr_hi p) * 2 ^ 32 + pr_lo p))) with (wrap 32 (pr_ev p + pr_lo p))
    by (unfold wrap; p64; lia).
  rewrite <- E. clear E. rewrite wrap_sub_l.
  destruct (Z.eqb_spec (pr_lo p) 0) as [E0|E0].
  - rewrite E0. rewrite (wrap_wrap_le 32 64) by lia. unfold wrap, inw in *; p64; lia.
  - unfold wrap, inw in *; p64; lia.
Qed.
