From Coq Require Import ZArith Bool List Lia.
From Verif Require Import Bits CsrSpec XipSpec XipModel.
Import ListNotations.
Local Open Scope Z_scope.

Ltac known_lt :=
  repeat match goal with
  | |- context [?a <? ?b] =>
      first [ replace (a <? b) with true by (symmetry; apply Z.ltb_lt; lia)
            | replace (a <? b) with false by (symmetry; apply Z.ltb_ge; lia) ]
  end; cbn [andb].

(** Reachable contents: only architected bits, line encoded in bit 9. *)
Definition ip_wf (m : mip_t) : Prop :=
  0 <= ip_value m /\ (forall i, Z.testbit (ip_value m) i = true -> is_irq i = true) /\
  (ip_ext m = 0 \/ ip_ext m = 2 ^ 9).

Definition line (m : mip_t) : bool := Z.testbit (ip_ext m) 9.

Lemma is_irq_range i : is_irq i = true -> 0 <= i < 12.
Proof.
  unfold is_irq, irq_numbers. intros H. apply existsb_exists in H. destruct H as (x & Hx & E).
  apply Z.eqb_eq in E; subst x. cbn in Hx. lia.
Qed.
Lemma is_irq_mask i : 0 <= i -> Z.testbit 0xbbb i = is_irq i.
Proof.
  intros Hi. destruct (Z_lt_dec i 12).
  - assert (forallb (fun i => eqb (Z.testbit 0xbbb i) (is_irq i)) (zrange 12) = true) as E by (vm_compute; reflexivity).
    apply eqb_prop. exact (forall_zrange _ _ E i ltac:(lia)).
  - transitivity false.
    + apply (inw_testbit_high 12); [unfold inw; cbn; lia|lia].
    + symmetry. destruct (is_irq i) eqn:E; [|reflexivity]. apply is_irq_range in E. lia.
Qed.
Lemma mip_wmask_bit i : 0 <= i -> Z.testbit mip_wmask i = mip_writable i.
Proof.
  intros Hi. unfold mip_writable. destruct (Z_lt_dec i 12).
  - assert (forallb (fun i => eqb (Z.testbit mip_wmask i) (is_irq i && negb (i =? 7) && negb (i =? 11))) (zrange 12) = true) as E by (vm_compute; reflexivity).
    apply eqb_prop. exact (forall_zrange _ _ E i ltac:(lia)).
  - transitivity false.
    + apply (inw_testbit_high 12); [unfold inw, mip_wmask; cbn; lia|lia].
    + symmetry. destruct (is_irq i) eqn:E; [|reflexivity]. apply is_irq_range in E. lia.
Qed.

Lemma ext_bit m i : ip_wf m -> 0 <= i -> Z.testbit (ip_ext m) i = (i =? 9) && line m.
Proof.
  intros (_ & _ & [E|E]) Hi; unfold line; rewrite E.
  - rewrite !Z.bits_0. symmetry; apply andb_false_r.
  - rewrite !Z.pow2_bits_eqb by lia. rewrite Z.eqb_refl, andb_true_r. apply Z.eqb_sym.
Qed.

Lemma mip_get_bit w m i : ip_wf m -> (w = 32 \/ w = 64) -> 0 <= i ->
  Z.testbit (mip_get w m) i = Z.testbit (ip_value m) i || ((i =? 9) && line m).
Proof.
  intros H Hw Hi. unfold mip_get. bnorm. rewrite ext_bit by assumption.
  destruct (Z.ltb_spec i w); [reflexivity|].
  destruct H as (_ & Hb & _). cbn [andb]. symmetry. apply orb_false_iff. split.
  - destruct (Z.testbit (ip_value m) i) eqn:E; [|reflexivity]. apply Hb, is_irq_range in E. lia.
  - replace (i =? 9) with false by lia. reflexivity.
Qed.

Lemma mip_set_wf v m : ip_wf m -> 0 <= v -> (forall i, 0 <= i -> Z.testbit v i = true -> is_irq i = true) ->
  ip_wf (fst (mip_set v m)).
Proof.
  intros (Hv & Hb & He) Hv' Hb'. unfold ip_wf; cbn [mip_set fst ip_value ip_ext]. ssplit; [|intros i|exact He].
  - apply wrap_range; lia.
  - rewrite wrap_testbit by lia. intros E. apply andb_prop in E.
    destruct (Z_lt_dec i 0); [rewrite Z.testbit_neg_r in E by lia; destruct E; discriminate|].
    apply Hb'; [lia|tauto].
Qed.

Lemma mip_set_bit v m i : 0 <= i < 64 -> Z.testbit (ip_value (fst (mip_set v m))) i = Z.testbit v i.
Proof. intros. cbn. bnorm. known_lt. reflexivity. Qed.

Lemma lor_nonneg' a b : 0 <= a -> 0 <= b -> 0 <= Z.lor a b.
Proof. intros. apply Z.lor_nonneg; auto. Qed.
Lemma land_nonneg_r a b : 0 <= b -> 0 <= Z.land a b.
Proof. intros. apply Z.land_nonneg; auto. Qed.
Lemma land_nonneg_l a b : 0 <= a -> 0 <= Z.land a b.
Proof. intros. apply Z.land_nonneg; auto. Qed.
Lemma wrap_nonneg w x : 0 <= w -> 0 <= wrap w x.
Proof. intros. pose proof (wrap_range w x H) as [? _]. assumption. Qed.

Lemma mip_write_spec w v m : ip_wf m -> (w = 32 \/ w = 64) ->
  ip_wf (fst (mip_write w v m)) /\ ip_ext (fst (mip_write w v m)) = ip_ext m /\
  forall i, 0 <= i < 64 -> Z.testbit (ip_value (fst (mip_write w v m))) i =
    if mip_writable i then Z.testbit v i else Z.testbit (ip_value m) i.
Proof.
  intros H Hw. unfold mip_write. ssplit.
  - apply mip_set_wf; [assumption| |].
    + apply lor_nonneg'; [apply land_nonneg_r; unfold mip_wmask; lia|apply land_nonneg_l, wrap_nonneg; lia].
    + intros i Hi. bnorm. rewrite mip_get_bit by assumption. rewrite mip_wmask_bit by assumption.
      intros E. unfold mip_writable in E. destruct (is_irq i) eqn:Ei; [reflexivity|].
      cbn [andb] in E. rewrite andb_false_r in E. cbn [orb] in E. destruct H as (_ & Hb & _).
      destruct (Z.testbit (ip_value m) i) eqn:Ev; [rewrite (Hb i Ev) in Ei; discriminate|].
      destruct (Z.eqb_spec i 9) as [->|]; [cbv in Ei; discriminate|]. cbn in E. discriminate.
  - reflexivity.
  - intros i Hi. rewrite mip_set_bit by assumption. bnorm. rewrite mip_get_bit by (assumption || lia).
    rewrite mip_wmask_bit by lia. known_lt.
    destruct (Z.eqb_spec i 9) as [->|Hn].
    + cbn. rewrite ?andb_false_r, ?orb_false_r, ?andb_true_r. reflexivity.
    + cbn [andb]. rewrite orb_false_r.
      destruct (mip_writable i), (Z.testbit v i), (Z.testbit (ip_value m) i); reflexivity.
Qed.

Lemma mip_setter_spec j v m : ip_wf m -> is_irq j = true ->
  ip_wf (fst (mip_setter j v m)) /\ ip_ext (fst (mip_setter j v m)) = ip_ext m /\
  forall i, 0 <= i < 64 -> Z.testbit (ip_value (fst (mip_setter j v m))) i =
    if i =? j then Z.odd v else Z.testbit (ip_value m) i || ((i =? 9) && line m).
Proof.
  intros H Hj. pose proof (is_irq_range j Hj) as Hr. unfold mip_setter.
  assert (forall i, 0 <= i -> Z.testbit (Z.shiftl 1 j) i = (i =? j)) as E1.
  { intros i Hi. rewrite Z.shiftl_spec by lia. change 1 with (2 ^ 0). destruct (Z_lt_dec i j).
    - rewrite Z.testbit_neg_r by lia. lia.
    - rewrite Z.pow2_bits_eqb by lia. destruct (Z.eqb_spec 0 (i - j)), (Z.eqb_spec i j); lia || reflexivity. }
  assert (forall i, 0 <= i -> Z.testbit (Z.shiftl (Z.land v 1) j) i = (i =? j) && Z.odd v) as E2.
  { intros i Hi. rewrite Z.shiftl_spec by lia. rewrite Z.land_spec.
    destruct (Z.eqb_spec i j) as [->|Hne].
    - rewrite Z.sub_diag. rewrite Z.bit0_odd. apply andb_true_r.
    - destruct (Z_lt_dec i j); [rewrite !Z.testbit_neg_r by lia; reflexivity|].
      change 1 with (2 ^ 0). rewrite (Z.pow2_bits_eqb 0) by lia. replace (0 =? i - j) with false by lia.
      apply andb_false_r. }
  ssplit.
  - apply mip_set_wf; [assumption| |].
    + apply lor_nonneg'; [apply land_nonneg_l, wrap_nonneg; lia|]. apply Z.shiftl_nonneg, land_nonneg_r; lia.
    + intros i Hi. rewrite Z.lor_spec, Z.land_spec, E2, wnot_testbit, E1, mip_get_bit by (auto || lia).
      intros E. destruct (Z.eqb_spec i j) as [->|Hn]; [assumption|].
      cbn [negb andb orb] in E. rewrite andb_true_r, orb_false_r in E. apply andb_prop in E. destruct E as [E _].
      destruct H as (_ & Hb & _).
      destruct (Z.testbit (ip_value m) i) eqn:Ev; [exact (Hb i Ev)|].
      destruct (Z.eqb_spec i 9) as [->|]; [reflexivity|discriminate].
  - reflexivity.
  - intros i Hi. rewrite mip_set_bit by assumption.
    rewrite Z.lor_spec, Z.land_spec, E2, wnot_testbit, E1, mip_get_bit by (auto || lia). known_lt.
    destruct (Z.eqb_spec i j) as [->|Hn]; cbn [negb andb orb].
    + rewrite andb_false_r. reflexivity.
    + rewrite andb_true_r, orb_false_r. reflexivity.
Qed.

Lemma mip_word_spec w o m : ip_wf m -> (w = 32 \/ w = 64) ->
  ip_wf (fst (mip_word w o m)) /\ ip_ext (fst (mip_word w o m)) = ip_ext m /\
  forall i, 0 <= i < 32 -> Z.testbit (ip_value (fst (mip_word w o m))) i =
    if mip_writable i then bit_step i (Z.testbit (ip_value m) i || ((i =? 9) && line m)) o
    else Z.testbit (ip_value m) i.
Proof.
  intros H Hw. destruct o; cbn [mip_word bit_step]; match goal with
    |- ip_wf (fst (mip_write w ?v m)) /\ _ => destruct (mip_write_spec w v m H Hw) as (A & B & C) end;
    (ssplit; [exact A|exact B|]); intros i Hi; rewrite C by lia; bnorm; rewrite ?mip_get_bit by (auto || lia);
    known_lt; reflexivity.
Qed.

(** ** C07 *)
Lemma ip_step_wf m o : ip_wf m -> ip_op_ok o = true -> ip_wf (ip_step m o).
Proof.
  intros H Hok. destruct o as [j v|v|w o]; cbn [ip_step].
  - apply mip_setter_spec; [assumption|]. cbn in Hok. apply andb_prop in Hok. destruct Hok as [Hok _].
    apply andb_prop in Hok. apply Hok.
  - destruct H as (A & B & C). unfold ip_wf, mip_set_ext; cbn. ssplit; auto. destruct (v =? 0); auto.
  - apply mip_word_spec; [assumption|]. destruct o; cbn in Hok; lia.
Qed.

Lemma ip_read_bit m i : ip_wf m -> 0 <= i -> ip_read m i = is_irq i && (Z.testbit (ip_value m) i || ((i =? 9) && line m)).
Proof.
  intros H Hi. unfold ip_read, mip_as_uint. rewrite Z.land_spec. rewrite mip_get_bit by auto.
  unfold mip_rmask. rewrite is_irq_mask by assumption. apply andb_comm.
Qed.

(** relation for one bit *)
Definition bit_rel (i : Z) (m : mip_t) (s : ip_spec) : Prop :=
  Z.testbit (ip_value m) i = isp_latch s i /\ line m = isp_line s.

Lemma set_ext_line v m : line (mip_set_ext v m) = negb (v =? 0).
Proof. unfold line, mip_set_ext; cbn [ip_ext]. destruct (v =? 0); reflexivity. Qed.
Lemma line_ext m m' : ip_ext m' = ip_ext m -> line m' = line m.
Proof. intros E; unfold line; rewrite E; reflexivity. Qed.
Lemma ok_field j v : ip_op_ok (IpField j v) = true -> is_irq j = true.
Proof. cbn. intros H. apply andb_prop in H. destruct H as [H _]. apply andb_prop in H. apply H. Qed.
Lemma ok_word w o : ip_op_ok (IpWord w o) = true -> w = 32 \/ w = 64.
Proof. destruct o; cbn; lia. Qed.

Lemma ip_step_other i m s o : i <> 9 -> is_irq i = true -> ip_wf m -> ip_op_ok o = true ->
  bit_rel i m s -> bit_rel i (ip_step m o) (ip_spec_step s o).
Proof.
  intros Hn Hirq H Hok [R1 R2]. pose proof (is_irq_range i Hirq).
  destruct o as [j v|v|w o]; cbn [ip_step ip_spec_step]; unfold bit_rel; cbn [isp_latch isp_line].
  - destruct (mip_setter_spec j v m H (ok_field _ _ Hok)) as (A & B & C).
    rewrite C by lia. rewrite (line_ext m _ B). replace (i =? 9) with false by lia.
    cbn [andb]. rewrite orb_false_r, R1. auto.
  - rewrite set_ext_line. auto.
  - destruct (mip_word_spec w o m H (ok_word _ _ Hok)) as (A & B & C).
    rewrite C by lia. rewrite (line_ext m _ B). replace (i =? 9) with false by lia.
    cbn [andb]. rewrite orb_false_r, R1. auto.
Qed.

Lemma ip_run_other i m s ops : i <> 9 -> is_irq i = true -> ip_wf m -> forallb ip_op_ok ops = true ->
  bit_rel i m s -> bit_rel i (fold_left ip_step ops m) (fold_left ip_spec_step ops s) /\ ip_wf (fold_left ip_step ops m).
Proof.
  intros Hn Hirq. revert m s; induction ops as [|o ops IH]; intros m s H Hok R; [auto|].
  cbn [forallb] in Hok. apply andb_prop in Hok. destruct Hok. cbn [fold_left].
  apply IH; [apply ip_step_wf; assumption|assumption|apply ip_step_other; assumption].
Qed.

Lemma ip_run_wf m ops : ip_wf m -> forallb ip_op_ok ops = true -> ip_wf (fold_left ip_step ops m).
Proof.
  revert m; induction ops as [|o ops IH]; intros m H Hok; [auto|].
  cbn [forallb] in Hok. apply andb_prop in Hok. destruct Hok. cbn [fold_left].
  apply IH; [apply ip_step_wf; assumption|assumption].
Qed.

Lemma ip_run_quiet m s ops : ip_wf m -> forallb ip_op_ok ops = true -> quiet (line m) ops = true ->
  bit_rel 9 m s -> bit_rel 9 (fold_left ip_step ops m) (fold_left ip_spec_step ops s).
Proof.
  revert m s; induction ops as [|o ops IH]; intros m s H Hok Hq [R1 R2]; [split; assumption|].
  cbn [forallb] in Hok. apply andb_prop in Hok. destruct Hok as [Ho Hops]. cbn [fold_left].
  apply IH; [apply ip_step_wf; assumption|assumption| |].
  - destruct o as [j v|v|w o]; cbn [quiet] in Hq; cbn [ip_step].
    + destruct (mip_setter_spec j v m H (ok_field _ _ Ho)) as (A & B & C). rewrite (line_ext m _ B).
      apply andb_prop in Hq; tauto.
    + rewrite set_ext_line. exact Hq.
    + destruct (mip_word_spec w o m H (ok_word _ _ Ho)) as (A & B & C). rewrite (line_ext m _ B).
      apply andb_prop in Hq; tauto.
  - destruct o as [j v|v|w o]; cbn [quiet] in Hq; cbn [ip_step ip_spec_step]; unfold bit_rel; cbn [isp_latch isp_line].
    + destruct (mip_setter_spec j v m H (ok_field _ _ Ho)) as (A & B & C).
      apply andb_prop in Hq. destruct Hq as [Hl _]. apply negb_true_iff in Hl.
      rewrite C, (line_ext m _ B), Hl by lia. cbn [andb]. rewrite andb_false_r, orb_false_r, R1, <- R2. auto.
    + rewrite set_ext_line. auto.
    + destruct (mip_word_spec w o m H (ok_word _ _ Ho)) as (A & B & C).
      apply andb_prop in Hq. destruct Hq as [Hl _]. apply negb_true_iff in Hl.
      rewrite C, (line_ext m _ B), Hl by lia. cbn [andb]. rewrite andb_false_r, orb_false_r, R1, <- R2. auto.
Qed.

(** Never lost: the stored bit 9 always covers the software bit. *)
Definition bit_ge (m : mip_t) (s : ip_spec) : Prop :=
  (isp_latch s 9 = true -> Z.testbit (ip_value m) 9 = true) /\ line m = isp_line s.
Lemma ip_run_ge m s ops : ip_wf m -> forallb ip_op_ok ops = true -> bit_ge m s ->
  bit_ge (fold_left ip_step ops m) (fold_left ip_spec_step ops s).
Proof.
  revert m s; induction ops as [|o ops IH]; intros m s H Hok [R1 R2]; [split; assumption|].
  cbn [forallb] in Hok. apply andb_prop in Hok. destruct Hok as [Ho Hops]. cbn [fold_left].
  apply IH; [apply ip_step_wf; assumption|assumption|].
  destruct o as [j v|v|w o]; cbn [ip_step ip_spec_step]; unfold bit_ge; cbn [isp_latch isp_line].
  - destruct (mip_setter_spec j v m H (ok_field _ _ Ho)) as (A & B & C). rewrite C, (line_ext m _ B) by lia.
    split; [|assumption]. destruct (9 =? j); [auto|]. intros E. rewrite (R1 E). reflexivity.
  - rewrite set_ext_line. auto.
  - destruct (mip_word_spec w o m H (ok_word _ _ Ho)) as (A & B & C). rewrite C, (line_ext m _ B) by lia.
    split; [|assumption]. change (mip_writable 9) with true. cbn iota.
    destruct o; cbn [bit_step]; [auto| |].
    + intros E. destruct (isp_latch s 9) eqn:El; [rewrite (R1 eq_refl); reflexivity|].
      cbn [orb] in E. rewrite E. rewrite !orb_true_r. reflexivity.
    + intros E. apply andb_prop in E. destruct E as [E1 E2]. rewrite (R1 E1), E2. reflexivity.
Qed.

Definition ip_abs (m : mip_t) : ip_spec := {| isp_latch := Z.testbit (ip_value m); isp_line := line m |}.

Lemma mip_other_bits m ops i : ip_wf m -> forallb ip_op_ok ops = true -> 0 <= i -> i <> 9 ->
  ip_read (fold_left ip_step ops m) i = ip_spec_read (fold_left ip_spec_step ops (ip_abs m)) i.
Proof.
  intros H Hok Hi Hn. rewrite ip_read_bit by (apply ip_run_wf || idtac; assumption).
  unfold ip_spec_read. destruct (is_irq i) eqn:E; [|reflexivity].
  destruct (ip_run_other i m (ip_abs m) ops Hn E H Hok) as [[R1 R2] _]; [split; reflexivity|].
  rewrite R1, R2. reflexivity.
Qed.
Lemma mip_seip_quiet m ops : ip_wf m -> forallb ip_op_ok ops = true -> quiet (line m) ops = true ->
  ip_read (fold_left ip_step ops m) 9 = ip_spec_read (fold_left ip_spec_step ops (ip_abs m)) 9.
Proof.
  intros H Hok Hq. rewrite ip_read_bit by (apply ip_run_wf || lia; assumption).
  destruct (ip_run_quiet m (ip_abs m) ops H Hok Hq) as [R1 R2]; [split; reflexivity|].
  unfold ip_spec_read. rewrite R1, R2. reflexivity.
Qed.
Lemma mip_seip_ge m ops : ip_wf m -> forallb ip_op_ok ops = true ->
  ip_spec_read (fold_left ip_spec_step ops (ip_abs m)) 9 = true ->
  ip_read (fold_left ip_step ops m) 9 = true.
Proof.
  intros H Hok. rewrite ip_read_bit by (apply ip_run_wf || lia; assumption).
  destruct (ip_run_ge m (ip_abs m) ops H Hok) as [R1 R2]; [split; auto|].
  unfold ip_spec_read. change (is_irq 9) with true. cbn [andb Z.eqb Pos.eqb].
  rewrite R2. intros E. apply orb_prop in E. destruct E as [E|E].
  - rewrite (R1 E). reflexivity.
  - rewrite E. apply orb_true_r.
Qed.

(** ** C06 *)
Lemma sip_wmask_irq i : 0 <= i -> Z.testbit sip_wmask i = true -> is_irq i = true /\ i <> 7 /\ i <> 11 /\ i <> 3.
Proof.
  intros Hi H. destruct (Z_lt_dec i 12).
  - assert (forallb (fun i => implb (Z.testbit sip_wmask i) (is_irq i && negb (i =? 7) && negb (i =? 11) && negb (i =? 3))) (zrange 12) = true) as E by (vm_compute; reflexivity).
    pose proof (forall_zrange _ _ E i ltac:(lia)) as E'. cbn beta in E'. rewrite H in E'. cbn [implb] in E'. lia.
  - rewrite (inw_testbit_high 12) in H; [discriminate|unfold inw, sip_wmask; cbn; lia|lia].
Qed.

Lemma sip_write_bits mideleg v m i : ip_wf m -> 0 <= i < 64 ->
  Z.testbit (ip_value (fst (sip_write 64 mideleg v m))) i =
  Z.testbit (Z.lor sip_wmask mideleg) i &&
  (Z.testbit (mip_get 64 m) i || (Z.testbit sip_wmask i && Z.testbit v i)).
Proof.
  intros H Hi. unfold sip_write, sip_set. rewrite mip_set_bit by assumption.
  unfold sip_get. bnorm. known_lt.
  destruct (Z.testbit sip_wmask i), (Z.testbit mideleg i), (Z.testbit (mip_get 64 m) i), (Z.testbit v i),
    (Z.testbit sip_rmask i); reflexivity.
Qed.

Lemma sip_write_set_main mideleg v m i : ip_wf m -> line m = false -> 0 <= i -> Z.testbit sip_wmask i = true ->
  Z.testbit (ip_value (fst (sip_write 64 mideleg v m))) i = Z.testbit (ip_value m) i || Z.testbit v i.
Proof.
  intros H Hl Hi Hm. destruct (sip_wmask_irq i Hi Hm) as (Hirq & _). pose proof (is_irq_range i Hirq).
  rewrite sip_write_bits by (assumption || lia). rewrite Z.lor_spec, Hm, mip_get_bit by auto.
  rewrite Hl, andb_false_r, orb_false_r. reflexivity.
Qed.

Lemma sie_write_bits mideleg v e i : inw 64 e -> 0 <= i < 64 -> is_irq i = true ->
  Z.testbit (fst (sie_write 64 mideleg v e)) i = Z.testbit e i || Z.testbit v i.
Proof.
  intros H Hi Hirq. unfold sie_write, sie_set, mie_set, sie_get, sie_wmask, sie_rmask; cbn [fst]. bnorm. known_lt.
  rewrite !is_irq_mask, Hirq by lia. cbn [negb orb andb]. rewrite !andb_true_r, ?andb_false_r, ?orb_false_r. reflexivity.
Qed.

Lemma mie_word_bits w o e i : (w = 32 \/ w = 64) -> inw 32 e -> 0 <= i < 32 ->
  Z.testbit (fst (mie_word w o e)) i = if is_irq i then bit_step i (Z.testbit e i) o else Z.testbit e i.
Proof.
  intros Hw He Hi. destruct o; unfold mie_word, mie_write, mie_set, mie_wmask; cbn [fst bit_step]; bnorm;
    known_lt; rewrite !is_irq_mask by lia; destruct (is_irq i);
    rewrite ?andb_true_r, ?andb_false_r, ?orb_false_r; reflexivity.
Qed.

(** ** C55 *)
Lemma sip_read_delegated w mideleg m i : (w = 32 \/ w = 64) -> ip_wf m -> is_irq i = true -> Z.testbit mideleg i = true ->
  Z.testbit (sip_as_uint w mideleg m) i = ip_read m i.
Proof.
  intros Hw H Hirq Hd. pose proof (is_irq_range i Hirq). rewrite ip_read_bit by (assumption || lia).
  unfold sip_as_uint, sip_get. bnorm. known_lt. rewrite Hd, mip_get_bit by (auto || lia).
  cbn [orb]. unfold sip_rmask. rewrite is_irq_mask, Hirq by lia. rewrite !andb_true_r. reflexivity.
Qed.
