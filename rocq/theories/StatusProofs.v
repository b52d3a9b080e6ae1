From Coq Require Import ZArith Bool List Lia.
From Verif Require Import Bits CsrSpec StatusSpec StatusModel.
Import ListNotations.
Local Open Scope Z_scope.

Ltac known_lt :=
  repeat match goal with
  | |- context [?a <? ?b] =>
      first [ replace (a <? b) with true by (symmetry; apply Z.ltb_lt; lia)
            | replace (a <? b) with false by (symmetry; apply Z.ltb_ge; lia) ]
  end; cbn [andb].

(** ** Bit laws *)
Lemma stretch32_low v i : 0 <= i < 26 -> Z.testbit (stretch32 v) i = Z.testbit v i.
Proof.
  intros Hi. unfold stretch32. bnorm. known_lt.
  rewrite (Z.testbit_neg_r _ (i - 32)) by lia. cbn [andb orb].
  change 0x03ffffff with (Z.ones 26). rewrite Z.testbit_ones_nonneg by lia. known_lt.
  apply andb_true_r.
Qed.

Lemma compress64_low v i : 0 <= i < 30 -> Z.testbit (compress64 v) i = Z.testbit v i.
Proof.
  intros Hi. unfold compress64. bnorm. known_lt.
  change 0x3fffffff with (Z.ones 30). rewrite Z.testbit_ones_nonneg by lia. known_lt.
  replace (Z.testbit 0xc0000000 i) with false.
  - rewrite andb_false_r, andb_true_r. reflexivity.
  - symmetry. change 0xc0000000 with (Z.shiftl 3 30). rewrite Z.shiftl_spec by lia.
    apply Z.testbit_neg_r. lia.
Qed.

Lemma compress64_range v : inw 32 (compress64 v).
Proof. apply wrap_range; lia. Qed.

Lemma ms_set64_bit v s i : 0 <= i < 64 -> Z.testbit (ms_value (fst (ms_set64 v s))) i = Z.testbit v i.
Proof. intros. cbn. bnorm. known_lt. reflexivity. Qed.

Lemma ms_write64_bit v s i : 0 <= i < 64 ->
  Z.testbit (ms_value (fst (ms_write64 v s))) i =
  if Z.testbit ms_write_mask i then Z.testbit v i else Z.testbit (ms_value s) i.
Proof.
  intros. unfold ms_write64. rewrite ms_set64_bit by lia. bnorm. known_lt.
  destruct (Z.testbit ms_write_mask i), (Z.testbit v i), (Z.testbit (ms_value s) i); reflexivity.
Qed.

Lemma ms_set32_bit v s i : 0 <= i < 64 ->
  Z.testbit (ms_value (fst (ms_set32 v s))) i =
  if Z.testbit set_mask_from_32 i then Z.testbit (stretch32 v) i else Z.testbit (ms_value s) i.
Proof.
  intros. unfold ms_set32. rewrite ms_set64_bit by lia. bnorm. known_lt.
  destruct (Z.testbit set_mask_from_32 i), (Z.testbit (stretch32 v) i), (Z.testbit (ms_value s) i); reflexivity.
Qed.

Lemma setter_buf_bit sh m v s i : 0 <= i < 64 -> 0 <= sh ->
  Z.testbit (ms_buf (setter sh m v s)) i =
  if Z.testbit m (i - sh) then Z.testbit v (i - sh) else Z.testbit (ms_buf s) i.
Proof.
  intros. cbn. bnorm. known_lt.
  destruct (Z.testbit m (i - sh)), (Z.testbit v (i - sh)), (Z.testbit (ms_buf s) i); reflexivity.
Qed.
Lemma setter_mask_bit sh m v s i : 0 <= i < 64 -> 0 <= sh ->
  Z.testbit (ms_bufmask (setter sh m v s)) i = Z.testbit (ms_bufmask s) i || Z.testbit m (i - sh).
Proof. intros. cbn. bnorm. reflexivity. Qed.

(** Values stay in range. *)
Definition ms_wf (s : mstatus) : Prop := inw 64 (ms_value s).

Lemma ms_set64_wf v s : ms_wf (fst (ms_set64 v s)).
Proof. unfold ms_wf; cbn. apply wrap_range; lia. Qed.

Lemma status_step_wf hs s o : ms_wf s -> ms_wf (status_step hs s o).
Proof.
  intros H. destruct o as [f v| |w o]; cbn [status_step].
  - unfold ms_stage. destruct f; try exact H. destruct (_ && _); exact H.
  - unfold ms_submit. cbn. unfold ms_wf; cbn. apply wrap_range; lia.
  - unfold ms_word. destruct (w =? 32), o; apply ms_set64_wf.
Qed.

(** ** Fields *)
Lemma off_bounds f : 0 <= off f /\ 1 <= width f <= 2 /\ off f + width f <= 23.
Proof. destruct f; cbn; lia. Qed.

Lemma field_range f v : 0 <= field_of f v < 2 ^ width f.
Proof. unfold field_of. apply Z.mod_pos_bound. destruct f; cbn; lia. Qed.

Lemma field_testbit f v k : 0 <= k < width f -> Z.testbit (field_of f v) k = Z.testbit v (off f + k).
Proof.
  intros Hk. pose proof (off_bounds f). unfold field_of.
  rewrite Z.mod_pow2_bits_low by lia. rewrite Z.div_pow2_bits by lia. f_equal; lia.
Qed.

Lemma ms_get_field f s : ms_get f s = field_of f (ms_value s).
Proof.
  unfold ms_get, getter, field_of. rewrite Z.shiftr_div_pow2 by (destruct f; cbn; lia).
  replace (code_mask f) with (Z.ones (width f)) by (destruct f; reflexivity).
  rewrite Z.land_ones by (destruct f; cbn; lia). destruct f; reflexivity.
Qed.

Lemma field_wmask f k : 0 <= k < width f -> Z.testbit ms_write_mask (off f + k) = true.
Proof.
  intros Hk. pose proof (off_bounds f). assert (k = 0 \/ k = 1) as [-> | ->] by lia;
  destruct f; vm_compute; try reflexivity; cbn in Hk; lia.
Qed.

Lemma wm32_bit i : 0 <= i < 30 -> Z.testbit ms_write_mask_32 i = Z.testbit ms_write_mask i.
Proof. intros. apply compress64_low. lia. Qed.

Lemma set_mask_low i : 0 <= i < 32 -> Z.testbit set_mask_from_32 i = true.
Proof.
  intros. assert (forallb (Z.testbit set_mask_from_32) (zrange 32) = true) as E by (vm_compute; reflexivity).
  exact (forall_zrange _ _ E i ltac:(lia)).
Qed.

(** code masks select exactly the field's own bits *)
Lemma code_mask_bit f g k : 0 <= k < width g ->
  Z.testbit (code_mask f) (off g + k - code_shift f) = sfield_eqb g f.
Proof.
  intros Hk. pose proof (off_bounds g). assert (k = 0 \/ k = 1) as [-> | ->] by lia;
  destruct f, g; try (vm_compute; reflexivity); cbn in Hk; lia.
Qed.
Lemma sfield_eqb_eq f g : sfield_eqb f g = true <-> f = g.
Proof. split; [destruct f, g; (reflexivity || (vm_compute; congruence))|intros ->; unfold sfield_eqb; apply Z.eqb_refl]. Qed.
Lemma code_shift_off f : code_shift f = off f.
Proof. destruct f; reflexivity. Qed.

(** ** Refinement relation, bit by bit *)
Definition rel (s : mstatus) (sp : status_spec) : Prop :=
  (forall f, 0 <= sp_cur sp f < 2 ^ width f) /\
  (forall f, match sp_staged sp f with Some p => 0 <= p < 2 ^ width f | None => True end) /\
  (forall f k, 0 <= k < width f ->
     Z.testbit (ms_value s) (off f + k) = Z.testbit (sp_cur sp f) k /\
     Z.testbit (ms_bufmask s) (off f + k) = (match sp_staged sp f with Some _ => true | None => false end) /\
     Z.testbit (ms_buf s) (off f + k) = (match sp_staged sp f with Some p => Z.testbit p k | None => false end)).

Lemma eq_field_bits f x y : 0 <= x < 2 ^ width f -> 0 <= y < 2 ^ width f ->
  (forall k, 0 <= k < width f -> Z.testbit x k = Z.testbit y k) -> x = y.
Proof. intros Hx Hy H. pose proof (off_bounds f). apply (inw_eq_bits (width f)); auto; lia. Qed.

Lemma rel_get s sp f : rel s sp -> ms_get f s = sp_cur sp f.
Proof.
  intros (Hc & _ & Hb). rewrite ms_get_field. apply (eq_field_bits f); [apply field_range|apply Hc|].
  intros k Hk. rewrite field_testbit by assumption. apply Hb; assumption.
Qed.

Lemma lor_small w a b : 0 <= w -> 0 <= a < 2 ^ w -> 0 <= b < 2 ^ w -> 0 <= Z.lor a b < 2 ^ w.
Proof. intros. apply (inw_lor w); assumption. Qed.
Lemma ldiff_small w a b : 0 <= w -> 0 <= a < 2 ^ w -> 0 <= Z.ldiff a b < 2 ^ w.
Proof.
  intros Hw Ha. apply inw_of_testbit; [assumption| |].
  - apply Z.ldiff_nonneg. left. lia.
  - intros i Hi. rewrite Z.ldiff_spec. rewrite (inw_testbit_high w a i) by (assumption || lia). reflexivity.
Qed.

Lemma step_rel hs s sp o : status_op_ok o = true -> rel s sp ->
  rel (status_step hs s o) (status_spec_step hs sp o).
Proof.
  intros Hok (Hc & Hs & Hb). destruct o as [f v| |w o].
  - (* SetField *)
    cbn [status_step status_spec_step].
    assert (ms_stage hs f v s = if ignored hs f v then s else setter (code_shift f) (code_mask f) v s) as ->
      by (destruct f; reflexivity).
    destruct (ignored hs f v); [unfold rel; auto|].
    unfold rel; cbn [sp_cur sp_staged]. ssplit; [assumption| |].
    + intros g. specialize (Hs g). destruct (sfield_eqb g f) eqn:E; [|exact Hs].
      apply sfield_eqb_eq in E; subst g. apply Z.mod_pos_bound. pose proof (off_bounds f).
      apply Z.pow_pos_nonneg; lia.
    + intros g k Hk. specialize (Hb g k Hk). destruct Hb as (B1 & B2 & B3).
      pose proof (off_bounds g). pose proof (off_bounds f).
      rewrite setter_buf_bit, setter_mask_bit by (rewrite ?code_shift_off; lia).
      rewrite code_mask_bit by assumption.
      split; [exact B1|].
      destruct (sfield_eqb g f) eqn:E.
      * apply sfield_eqb_eq in E; subst g. rewrite orb_true_r. split; [reflexivity|].
        rewrite Z.mod_pow2_bits_low by lia. rewrite code_shift_off. f_equal; lia.
      * rewrite orb_false_r. split; assumption.
  - (* Submit *)
    cbn [status_step status_spec_step]. unfold rel; cbn [sp_cur sp_staged]. ssplit.
    + intros f. specialize (Hs f). specialize (Hc f). destruct (sp_staged sp f); assumption.
    + intros f; exact I.
    + intros f k Hk. pose proof (off_bounds f). specialize (Hb f k Hk). destruct Hb as (B1 & B2 & B3).
      unfold ms_submit. destruct (ms_write64 _ s) as [s1 chk] eqn:E. cbn [fst ms_value ms_buf ms_bufmask].
      split; [|split; apply Z.bits_0].
      assert (s1 = fst (ms_write64 (Z.lor (Z.land (ms_value s) (wnot 64 (ms_bufmask s))) (ms_buf s)) s)) as ->
        by (rewrite E; reflexivity).
      rewrite ms_write64_bit by lia. rewrite field_wmask by assumption. bnorm. known_lt.
      rewrite B1, B2, B3. destruct (sp_staged sp f); rewrite ?andb_false_r, ?andb_true_r, ?orb_false_r; reflexivity.
  - (* Word *)
    pose proof (off_bounds F_UIE).
    assert (Hw : forall s', s' = fst (ms_word w o s) -> ms_buf s' = ms_buf s /\ ms_bufmask s' = ms_bufmask s).
    { intros s' ->. unfold ms_word. destruct (w =? 32), o; split; reflexivity. }
    destruct (Hw _ eq_refl) as [Eb Em]. cbn [status_step].
    assert (Hcur : forall f k, 0 <= k < width f ->
      Z.testbit (ms_value (fst (ms_word w o s))) (off f + k) =
      Z.testbit (sp_cur (status_spec_step hs sp (Word w o)) f) k).
    { intros f k Hk. pose proof (off_bounds f). specialize (Hb f k Hk). destruct Hb as (B1 & B2 & B3).
      unfold ms_word. destruct (w =? 32), o; cbn [status_spec_step sp_cur];
        rewrite ?ms_set32_bit, ?ms_write64_bit by lia;
        rewrite ?set_mask_low, ?field_wmask by (assumption || lia);
        rewrite ?stretch32_low by lia; bnorm; rewrite ?compress64_low, ?wm32_bit, ?field_wmask by (assumption || lia);
        rewrite ?field_testbit by assumption; known_lt; rewrite ?B1, ?andb_true_r; reflexivity. }
    unfold rel. rewrite Eb, Em. ssplit.
    + intros f. specialize (Hc f). pose proof (off_bounds f). destruct o; cbn [status_spec_step sp_cur].
      * apply field_range.
      * apply lor_small; [lia|assumption|apply field_range].
      * apply ldiff_small; [lia|assumption].
    + intros f. specialize (Hs f). destruct o; exact Hs.
    + intros f k Hk. split; [apply Hcur; assumption|].
      specialize (Hb f k Hk). destruct o; apply Hb.
Qed.

Lemma run_rel hs ops s sp : forallb status_op_ok ops = true -> rel s sp ->
  rel (fold_left (status_step hs) ops s) (fold_left (status_spec_step hs) ops sp).
Proof.
  revert s sp; induction ops as [|o ops IH]; intros s sp Hok H; [exact H|].
  cbn [forallb] in Hok. apply andb_prop in Hok. destruct Hok as [Ho Hops].
  cbn [fold_left]. apply IH; [assumption|]. apply step_rel; assumption.
Qed.

Definition fresh_status (v : Z) : mstatus := {| ms_value := v; ms_buf := 0; ms_bufmask := 0 |}.
Definition spec_of (v : Z) : status_spec :=
  {| sp_cur := fun f => field_of f v; sp_staged := fun _ => None |}.
Lemma fresh_rel v : rel (fresh_status v) (spec_of v).
Proof.
  unfold rel, fresh_status, spec_of; cbn [sp_cur sp_staged ms_value ms_buf ms_bufmask]. ssplit; [intros; apply field_range|auto|].
  intros f k Hk. rewrite field_testbit by assumption. rewrite !Z.bits_0. auto.
Qed.

Lemma status_history_main hs v ops f : forallb status_op_ok ops = true ->
  ms_get f (fold_left (status_step hs) ops (fresh_status v)) =
  sp_cur (fold_left (status_spec_step hs) ops (spec_of v)) f.
Proof. intros Hok. apply rel_get. apply run_rel; [assumption|apply fresh_rel]. Qed.

(** Bits outside every field. *)
Definition all_fields := [F_TSR; F_TW; F_TVM; F_MXR; F_SUM; F_MPRV; F_XS; F_FS; F_MPP; F_SPP;
  F_MPIE; F_SPIE; F_UPIE; F_MIE; F_SIE; F_UIE].
Lemma all_fields_complete f : In f all_fields.
Proof. destruct f; cbn; tauto. Qed.

Lemma wmask_fields i : 0 <= i < 64 ->
  Z.testbit ms_write_mask i = existsb (in_field i) all_fields.
Proof.
  intros. assert (forallb (fun i => eqb (Z.testbit ms_write_mask i) (existsb (in_field i) all_fields)) (zrange 64) = true)
    as E by (vm_compute; reflexivity).
  apply eqb_prop. exact (forall_zrange _ _ E i ltac:(lia)).
Qed.

Lemma no_field_wmask i : 0 <= i < 64 -> (forall f, in_field i f = false) -> Z.testbit ms_write_mask i = false.
Proof.
  intros Hi Hf. rewrite wmask_fields by assumption. destruct (existsb _ _) eqn:E; [|reflexivity].
  apply existsb_exists in E. destruct E as (f & _ & E). rewrite Hf in E. discriminate.
Qed.

Definition not_word32 (o : status_op) : bool := match o with Word 32 _ => false | _ => true end.

Lemma submit_bit s i : 0 <= i < 64 ->
  Z.testbit (ms_value (fst (ms_submit s))) i =
  if Z.testbit ms_write_mask i
  then if Z.testbit (ms_bufmask s) i then Z.testbit (ms_buf s) i
       else Z.testbit (ms_value s) i || Z.testbit (ms_buf s) i
  else Z.testbit (ms_value s) i.
Proof.
  intros Hi. unfold ms_submit.
  destruct (ms_write64 _ s) as [s1 chk] eqn:E. cbn [fst ms_value].
  assert (s1 = fst (ms_write64 (Z.lor (Z.land (ms_value s) (wnot 64 (ms_bufmask s))) (ms_buf s)) s)) as ->
    by (rewrite E; reflexivity).
  rewrite ms_write64_bit by lia. bnorm. known_lt.
  destruct (Z.testbit ms_write_mask i), (Z.testbit (ms_bufmask s) i), (Z.testbit (ms_value s) i),
    (Z.testbit (ms_buf s) i); reflexivity.
Qed.

Lemma stage_value hs f v s : ms_value (ms_stage hs f v s) = ms_value s.
Proof. destruct f; try reflexivity. unfold ms_stage. destruct (_ && _); reflexivity. Qed.

Lemma step_outside hs s o i : 0 <= i < 64 -> (forall f, in_field i f = false) ->
  status_op_ok o = true -> not_word32 o = true ->
  Z.testbit (ms_value (status_step hs s o)) i = Z.testbit (ms_value s) i.
Proof.
  intros Hi Hf Hok Hn. pose proof (no_field_wmask i Hi Hf) as Hm.
  destruct o as [f v| |w o]; cbn [status_step].
  - rewrite stage_value. reflexivity.
  - rewrite submit_bit, Hm by lia. reflexivity.
  - assert ((w =? 32) = false) as Hw32.
    { cbn [not_word32] in Hn. destruct (Z.eqb_spec w 32) as [->|]; [discriminate Hn|reflexivity]. }
    unfold ms_word. rewrite Hw32. destruct o; rewrite ms_write64_bit, Hm by lia; reflexivity.
Qed.

Lemma run_outside hs v ops i : 0 <= i < 64 -> (forall f, in_field i f = false) ->
  forallb status_op_ok ops = true -> forallb not_word32 ops = true ->
  Z.testbit (ms_value (fold_left (status_step hs) ops (fresh_status v))) i = Z.testbit v i.
Proof.
  intros Hi Hf. change v with (ms_value (fresh_status v)) at 2. generalize (fresh_status v) as s.
  induction ops as [|o ops IH]; intros s Hok Hn; [reflexivity|].
  cbn [forallb] in Hok, Hn. apply andb_prop in Hok, Hn. destruct Hok, Hn.
  cbn [fold_left]. rewrite IH by assumption. apply step_outside; assumption.
Qed.

(** UXL and SXL survive every access, also 32-bit ones. *)
Lemma step_xl hs s o i : 32 <= i <= 35 ->
  Z.testbit (ms_value (status_step hs s o)) i = Z.testbit (ms_value s) i.
Proof.
  intros Hi.
  assert (Z.testbit ms_write_mask i = false) as Hm
    by (assert (i = 32 \/ i = 33 \/ i = 34 \/ i = 35) as [-> | [-> | [-> | ->]]] by lia; reflexivity).
  assert (Z.testbit set_mask_from_32 i = false) as Hs
    by (assert (i = 32 \/ i = 33 \/ i = 34 \/ i = 35) as [-> | [-> | [-> | ->]]] by lia; reflexivity).
  destruct o as [f v| |w o]; cbn [status_step].
  - rewrite stage_value. reflexivity.
  - rewrite submit_bit, Hm by lia. reflexivity.
  - unfold ms_word. destruct (w =? 32), o; rewrite ?ms_write64_bit, ?ms_set32_bit, ?Hm, ?Hs by lia; reflexivity.
Qed.
Lemma run_xl hs s ops i : 32 <= i <= 35 ->
  Z.testbit (ms_value (fold_left (status_step hs) ops s)) i = Z.testbit (ms_value s) i.
Proof.
  intros Hi. revert s; induction ops as [|o ops IH]; intros s; [reflexivity|].
  cbn [fold_left]. rewrite IH. apply step_xl; assumption.
Qed.

(** Staging alone is invisible. *)
Definition is_stage (o : status_op) : bool := match o with SetField _ _ => true | _ => false end.
Lemma run_stage hs s ops : forallb is_stage ops = true ->
  ms_value (fold_left (status_step hs) ops s) = ms_value s.
Proof.
  revert s; induction ops as [|o ops IH]; intros s H; [reflexivity|].
  cbn [forallb] in H. apply andb_prop in H. destruct H as [Ho H]. cbn [fold_left].
  rewrite IH by assumption. destruct o; try discriminate. apply stage_value.
Qed.

(** ** sstatus *)
Lemma s_write_bits i : 0 <= i < 64 -> Z.testbit ss_write_mask i = s_write_bit i.
Proof.
  intros. assert (forallb (fun i => eqb (Z.testbit ss_write_mask i) (s_write_bit i)) (zrange 64) = true)
    as E by (vm_compute; reflexivity).
  apply eqb_prop. exact (forall_zrange _ _ E i ltac:(lia)).
Qed.
Lemma s_read_bits i : 0 <= i < 64 -> Z.testbit ss_read_mask i = s_read_bit i.
Proof.
  intros. assert (forallb (fun i => eqb (Z.testbit ss_read_mask i) (s_read_bit i)) (zrange 64) = true)
    as E by (vm_compute; reflexivity).
  apply eqb_prop. exact (forall_zrange _ _ E i ltac:(lia)).
Qed.
Lemma s_write_small i : 0 <= i < 64 -> s_write_bit i = true -> i < 26.
Proof.
  intros Hi H. destruct (Z_lt_dec i 26); [assumption|exfalso].
  assert (forallb (fun i => (i <? 26) || negb (s_write_bit i)) (zrange 64) = true) as E by (vm_compute; reflexivity).
  pose proof (forall_zrange _ _ E i ltac:(lia)) as E'. cbn beta in E'. rewrite H in E'. lia.
Qed.

Lemma view_set64_bit wm v s i : 0 <= i < 64 ->
  Z.testbit (ms_value (fst (view_set64 wm v s))) i =
  if Z.testbit wm i then Z.testbit v i else Z.testbit (ms_value s) i.
Proof.
  intros. unfold view_set64. rewrite ms_set64_bit by lia. bnorm. known_lt.
  destruct (Z.testbit wm i), (Z.testbit v i), (Z.testbit (ms_value s) i); reflexivity.
Qed.

Lemma sstatus_word_bit w o s i : (w = 32 \/ w = 64) -> 0 <= i < 64 ->
  Z.testbit (ms_value (fst (sstatus_word w o s))) i =
  if s_write_bit i then bit_step i (Z.testbit (ms_value s) i) o else Z.testbit (ms_value s) i.
Proof.
  intros Hw Hi. pose proof (s_write_bits i Hi) as E. pose proof (s_write_small i Hi) as Hs.
  unfold sstatus_word, view_word, view_set32. destruct Hw as [-> | ->]; cbn [Z.eqb Pos.eqb].
  - destruct o; rewrite view_set64_bit, E by lia; destruct (s_write_bit i); try reflexivity;
      specialize (Hs eq_refl); rewrite stretch32_low by lia; bnorm;
      rewrite ?compress64_low, ?E by lia; known_lt; rewrite ?andb_true_r; reflexivity.
  - destruct o; rewrite view_set64_bit, E by lia; destruct (s_write_bit i); try reflexivity;
      bnorm; known_lt; rewrite E; cbn [bit_step]; rewrite ?andb_true_r, ?andb_false_r, ?orb_false_r; reflexivity.
Qed.

Lemma sstatus_word_rest w o s :
  ms_buf (fst (sstatus_word w o s)) = ms_buf s /\ ms_bufmask (fst (sstatus_word w o s)) = ms_bufmask s.
Proof. unfold sstatus_word, view_word. destruct (w =? 32), o; split; reflexivity. Qed.

Lemma ss_read_in_ms i : 0 <= i < 64 -> Z.testbit ss_read_mask i = true -> Z.testbit ms_read_mask i = true.
Proof.
  intros Hi H.
  assert (forallb (fun i => implb (Z.testbit ss_read_mask i) (Z.testbit ms_read_mask i)) (zrange 64) = true)
    as E by (vm_compute; reflexivity).
  pose proof (forall_zrange _ _ E i ltac:(lia)) as E'. cbn beta in E'. rewrite H in E'. exact E'.
Qed.

Lemma sstatus_read_visible s i : 0 <= i < 64 -> s_read_bit i = true ->
  Z.testbit (sstatus_as_uint64 s) i = Z.testbit (ms_value s) i.
Proof.
  intros Hi H. unfold sstatus_as_uint64, ms_as_uint64. bnorm.
  rewrite ss_read_in_ms; [apply andb_true_r|assumption|]. rewrite s_read_bits; assumption.
Qed.
