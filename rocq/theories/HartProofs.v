(** Proofs for traps, returns and interrupt selection. *)
From Coq Require Import ZArith Bool List Lia.
From Verif Require Import Bits CsrSpec StatusSpec StatusModel StatusProofs XipSpec XipModel XipProofs HartSpec HartModel.
Import ListNotations.
Local Open Scope Z_scope.

(** ** Elementary facts *)
Lemma land_bit_test x i : 0 <= i -> negb (Z.land x (Z.shiftl 1 i) =? 0) = Z.testbit x i.
Proof.
  intros Hi. destruct (Z.testbit x i) eqn:E.
  - apply negb_true_iff, Z.eqb_neq. intros C.
    assert (Z.testbit (Z.land x (Z.shiftl 1 i)) i = false) as F by (rewrite C; apply Z.bits_0).
    rewrite Z.land_spec, E, Z.shiftl_spec, Z.sub_diag in F by lia. discriminate F.
  - apply negb_false_iff, Z.eqb_eq. apply Z.bits_inj'. intros j Hj. rewrite Z.land_spec, Z.bits_0, Z.shiftl_spec by lia.
    destruct (Z.eq_dec j i) as [->|N]; [rewrite E; reflexivity|].
    replace (Z.testbit 1 (j - i)) with false; [apply andb_false_r|].
    symmetry. change 1 with (2 ^ 0). apply Z.pow2_bits_false. lia.
Qed.

Lemma irq_cases i : is_irq i = true -> In i irq_numbers.
Proof. unfold is_irq. intros H. apply existsb_exists in H. destruct H as (x & Hx & E). apply Z.eqb_eq in E. subst. exact Hx. Qed.

Definition irq_only (x : Z) : Prop := forall i, Z.testbit x i = true -> is_irq i = true.

Lemma irq_only_nonzero x : irq_only x -> x <> 0 -> exists i, is_irq i = true /\ Z.testbit x i = true.
Proof.
  intros H N. destruct (existsb (Z.testbit x) irq_numbers) eqn:E.
  - apply existsb_exists in E. destruct E as (i & Hi & T). exists i. split; [|exact T].
    apply existsb_exists. exists i. split; [exact Hi|apply Z.eqb_refl].
  - exfalso. apply N. apply Z.bits_inj'. intros i Hi. rewrite Z.bits_0.
    destruct (Z.testbit x i) eqn:T; [|reflexivity].
    assert (existsb (Z.testbit x) irq_numbers = true) as F; [|congruence].
    apply existsb_exists. exists i. split; [apply irq_cases, H, T|exact T].
Qed.

Lemma pick_spec x : irq_only x -> x <> 0 ->
  is_irq (pick_interrupt x) = true /\ Z.testbit x (pick_interrupt x) = true /\
  forall j, Z.testbit x j = true -> j <> pick_interrupt x -> pos (pick_interrupt x) irq_order < pos j irq_order.
Proof.
  intros H N. destruct (irq_only_nonzero x H N) as (i & Hi & Ti).
  unfold pick_interrupt. rewrite !land_bit_test by lia.
  assert (forall j, Z.testbit x j = true -> In j irq_numbers) as J by (intros j Hj; apply irq_cases, H, Hj).
  clear H N. apply irq_cases in Hi.
  repeat match goal with |- context [if Z.testbit x ?k then _ else _] => destruct (Z.testbit x k) eqn:?E end;
    try (split; [reflexivity|split; [assumption|]]; intros j Hj Hn; specialize (J j Hj); cbn in J;
         repeat (destruct J as [J|J]; [subst j; try congruence; try (vm_compute; reflexivity); try (exfalso; apply Hn; reflexivity)|]); contradiction).
  exfalso. cbn in Hi. repeat (destruct Hi as [Hi|Hi]; [subst i; congruence|]). contradiction.
Qed.

(** ** Well-formed harts (an invariant of every history, see below). *)
Definition legal_priv (p : Z) : Prop := p = U_mode \/ p = S_mode \/ p = M_mode.
Definition regs_wf (w : Z) (r : trapregs) : Prop :=
  inw w (t_epc r) /\ inw w (t_cause r) /\ inw w (t_tvec r) /\ inw w (t_tval r).
Definition nothing_staged (s : mstatus) : Prop := ms_buf s = 0 /\ ms_bufmask s = 0.
Definition hart_wf (h : hart) : Prop :=
  (h_xlen h = 32 \/ h_xlen h = 64) /\ 0 <= h_priv h < 4 /\
  nothing_staged (h_status h) /\ inw 64 (ms_value (h_status h)) /\
  ip_wf (h_ip h) /\ inw 64 (h_ie h) /\
  irq_only (h_mideleg h) /\ 0 <= h_mideleg h /\
  regs_wf (h_xlen h) (h_m h) /\ regs_wf (h_xlen h) (h_s h) /\
  (h_avail h = true -> is_irq (h_code h) = true).

(** Status fields, pending and enable bits as software sees them. *)
Definition sf (h : hart) (f : sfield) : Z := field_of f (ms_value (h_status h)).
Definition view (h : hart) : irq_view :=
  {| iv_pend := Z.testbit (mip_as_uint 32 (h_ip h)); iv_enab := Z.testbit (mie_as_uint 32 (h_ie h));
     iv_deleg := Z.testbit (mideleg_r h); iv_udeleg := Z.testbit (sideleg_r h);
     iv_priv := h_priv h; iv_mie := sf h F_MIE; iv_sie := sf h F_SIE |}.

Lemma one_bit f v : width f = 1 -> negb (field_of f v =? 0) = (field_of f v =? 1).
Proof. intros W. pose proof (field_range f v) as R. rewrite W in R. destruct (Z.eqb_spec (field_of f v) 0), (Z.eqb_spec (field_of f v) 1); cbn; try reflexivity; lia. Qed.

(** ** Interrupt selection *)
Definition ints (h : hart) : Z := Z.land (mip_as_uint 32 (h_ip h)) (mie_as_uint 32 (h_ie h)).
Lemma ints_irq h : irq_only (ints h).
Proof.
  intros i. unfold ints, mip_as_uint. rewrite !Z.land_spec. intros H.
  apply andb_prop in H. destruct H as [H _]. apply andb_prop in H. destruct H as [_ H].
  assert (0 <= i) by (destruct (Z.lt_ge_cases i 0); [rewrite Z.testbit_neg_r in H by lia; discriminate|lia]).
  unfold mip_rmask in H. rewrite is_irq_mask in H by lia. exact H.
Qed.
Lemma irq_only_land x y : irq_only x -> irq_only (Z.land x y).
Proof. intros H i. rewrite Z.land_spec. intros E. apply andb_prop in E. apply H, E. Qed.

Definition m_ints h := Z.land (ints h) (wnot 32 (mideleg_r h)).
Definition s_ints h := Z.land (Z.land (ints h) (mideleg_r h)) (wnot 32 (sideleg_r h)).

Lemma m_ints_bit h i : is_irq i = true -> Z.testbit (m_ints h) i =
  iv_pend (view h) i && iv_enab (view h) i && irq_level_m (iv_deleg (view h)) i.
Proof.
  intros Hi. apply is_irq_range in Hi. unfold m_ints, ints. rewrite !Z.land_spec, wnot_testbit by lia.
  cbn [view iv_pend iv_enab iv_deleg]. unfold irq_level_m. replace (i <? 32) with true by (symmetry; apply Z.ltb_lt; lia).
  rewrite ?andb_true_r. reflexivity.
Qed.
Lemma s_ints_bit h i : is_irq i = true -> Z.testbit (s_ints h) i =
  iv_pend (view h) i && iv_enab (view h) i && irq_level_s (iv_deleg (view h)) (iv_udeleg (view h)) i.
Proof.
  intros Hi. apply is_irq_range in Hi. unfold s_ints, ints. rewrite !Z.land_spec, wnot_testbit by lia.
  cbn [view iv_pend iv_enab iv_deleg iv_udeleg]. unfold irq_level_s. replace (i <? 32) with true by (symmetry; apply Z.ltb_lt; lia).
  rewrite !andb_assoc, ?andb_true_r. reflexivity.
Qed.

Lemma m_elig_bit h i : m_eligible (view h) i = Z.testbit (m_ints h) i && m_on (h_priv h) (sf h F_MIE).
Proof.
  unfold m_eligible. destruct (is_irq i) eqn:E.
  - rewrite m_ints_bit by exact E. reflexivity.
  - cbn. destruct (Z.testbit (m_ints h) i) eqn:T; [|reflexivity].
    apply (irq_only_land _ _ (ints_irq h)) in T. congruence.
Qed.
Lemma s_elig_bit h i : s_eligible (view h) i = Z.testbit (s_ints h) i && s_on (h_priv h) (sf h F_SIE).
Proof.
  unfold s_eligible. destruct (is_irq i) eqn:E.
  - rewrite s_ints_bit by exact E. reflexivity.
  - cbn. destruct (Z.testbit (s_ints h) i) eqn:T; [|reflexivity].
    apply (irq_only_land _ _ (irq_only_land _ _ (ints_irq h))) in T. congruence.
Qed.

Lemma m_on_code h : negb (h_priv h =? 3) || negb (ms_get F_MIE (h_status h) =? 0) = m_on (h_priv h) (sf h F_MIE).
Proof. rewrite ms_get_field, one_bit by reflexivity. reflexivity. Qed.
Lemma s_on_code h : legal_priv (h_priv h) ->
  ((h_priv h <? 1) || negb (ms_get F_SIE (h_status h) =? 0)) && negb (h_priv h =? 3) = s_on (h_priv h) (sf h F_SIE).
Proof.
  intros P. rewrite ms_get_field, one_bit by reflexivity. unfold s_on, sf.
  destruct P as [-> | [-> | ->]]; unfold U_mode, S_mode, M_mode; cbn; rewrite ?andb_true_r, ?andb_false_r; reflexivity.
Qed.

Lemma select_spec h : legal_priv (h_priv h) ->
  match select_interrupt h with
  | Some c => best_irq (view h) c
  | None => forall i, eligible (view h) i = false
  end.
Proof.
  intros P. unfold select_interrupt. fold (ints h). rewrite m_on_code, (s_on_code h P).
  fold (m_ints h) (s_ints h).
  assert (irq_only (m_ints h)) as Im by (apply irq_only_land, ints_irq).
  assert (irq_only (s_ints h)) as Is by (apply irq_only_land, irq_only_land, ints_irq).
  destruct (Z.eqb_spec (ints h) 0) as [Z0|NZ].
  { intros i. unfold eligible. rewrite m_elig_bit, s_elig_bit. unfold m_ints, s_ints. rewrite Z0, !Z.land_0_l, !Z.bits_0. reflexivity. }
  set (mo := m_on (h_priv h) (sf h F_MIE)). set (so := s_on (h_priv h) (sf h F_SIE)).
  destruct (negb (mo || so || _)) eqn:None0.
  { apply negb_true_iff in None0. apply orb_false_elim in None0. destruct None0 as [A _]. apply orb_false_elim in A. destruct A as [A B].
    intros i. unfold eligible. rewrite m_elig_bit, s_elig_bit. fold mo so. rewrite A, B, !andb_false_r. reflexivity. }
  clear None0.
  destruct (mo && negb (m_ints h =? 0)) eqn:M.
  { apply andb_prop in M. destruct M as [M N]. apply negb_true_iff, Z.eqb_neq in N.
    destruct (pick_spec _ Im N) as (Hc & Tc & Hb).
    split. { unfold eligible. rewrite m_elig_bit. fold mo. rewrite Tc, M. reflexivity. }
    intros j Hj Nj. unfold before. rewrite !m_elig_bit. fold mo. rewrite M, !andb_true_r, Tc.
    destruct (Z.testbit (m_ints h) j) eqn:Tj; [right|left; auto].
    split; [reflexivity|]. apply Hb; assumption. }
  assert (forall i, m_eligible (view h) i = false) as NoM.
  { intros i. rewrite m_elig_bit. fold mo. destruct mo; [|apply andb_false_r].
    cbn in M. apply negb_false_iff, Z.eqb_eq in M. rewrite M, Z.bits_0. reflexivity. }
  destruct (so && negb (s_ints h =? 0)) eqn:S.
  { apply andb_prop in S. destruct S as [S N]. apply negb_true_iff, Z.eqb_neq in N.
    destruct (pick_spec _ Is N) as (Hc & Tc & Hb).
    split. { unfold eligible. rewrite NoM, s_elig_bit. fold so. rewrite Tc, S. reflexivity. }
    intros j Hj Nj. unfold before. right. rewrite !NoM. split; [reflexivity|].
    unfold eligible in Hj. rewrite NoM, s_elig_bit in Hj. apply andb_prop in Hj. apply Hb; [apply Hj|assumption]. }
  intros i. unfold eligible. rewrite NoM, s_elig_bit. fold so. destruct so; [|apply andb_false_r].
  cbn in S. apply negb_false_iff, Z.eqb_eq in S. rewrite S, Z.bits_0. reflexivity.
Qed.

Lemma check_main h : legal_priv (h_priv h) -> h_avail h = false ->
  (h_avail (check_for_interrupt h) = true <-> exists i, eligible (view h) i = true) /\
  (h_avail (check_for_interrupt h) = true -> best_irq (view h) (h_code (check_for_interrupt h))).
Proof.
  intros P A. pose proof (select_spec h P) as S. unfold check_for_interrupt.
  destruct (select_interrupt h) as [c|] eqn:E; cbn [set_offer h_avail h_code].
  - split; [split; [intros _; exists c; apply S|reflexivity]|intros _; exact S].
  - split; [|congruence]. split; [congruence|]. intros [i Hi]. rewrite S in Hi. discriminate.
Qed.

Lemma check_overwrites h i : legal_priv (h_priv h) -> eligible (view h) i = true ->
  h_avail (check_for_interrupt h) = true /\ best_irq (view h) (h_code (check_for_interrupt h)).
Proof.
  intros P Hi. pose proof (select_spec h P) as S. unfold check_for_interrupt.
  destruct (select_interrupt h) as [c|] eqn:E; cbn [set_offer h_avail h_code]; [auto|].
  rewrite S in Hi. discriminate.
Qed.

(** check changes nothing but the offer *)
Lemma check_frame h : set_offer (check_for_interrupt h) (h_avail h) (h_code h) = h.
Proof. unfold check_for_interrupt. destruct (select_interrupt h); destruct h; reflexivity. Qed.
Lemma check_if_frame b h : exists a c, check_if b h = set_offer h a c.
Proof.
  unfold check_if, check_for_interrupt. exists (h_avail (check_if b h)), (h_code (check_if b h)).
  unfold check_if, check_for_interrupt. destruct b; [destruct (select_interrupt h)|]; destruct h; reflexivity.
Qed.

(** ** Trap entry *)
Lemma staged_fresh s : nothing_staged s -> s = fresh_status (ms_value s).
Proof. intros [A B]. destruct s; cbn in *. subst. reflexivity. Qed.

Lemma deleg_bit x m i : 0 <= i -> negb (Z.land (Z.land x m) (Z.shiftl 1 i) =? 0) = Z.testbit (Z.land x m) i.
Proof. apply land_bit_test. Qed.

(** Destination mode in terms of the specification. *)
Lemma dest_spec h q : req_ok q -> (q_int q = true -> Z.testbit (mideleg_r h) (q_code q) = true -> Z.testbit (sideleg_r h) (q_code q) = false) ->
  dest_mode h q = Some (trap_dest (h_priv h) (mideleg_r h) (medeleg_r h) q).
Proof.
  intros (Hc & _) Hs. unfold dest_mode, trap_dest, M_mode, S_mode.
  rewrite !land_bit_test by lia. replace (32 <=? q_code q) with false by (symmetry; apply Z.leb_gt; lia).
  replace (64 <=? q_code q) with false by (symmetry; apply Z.leb_gt; lia).
  destruct (q_int q).
  - destruct (Z.testbit (mideleg_r h) (q_code q)); [|reflexivity]. rewrite Hs by reflexivity. reflexivity.
  - destruct (negb (h_priv h =? 3)); [|reflexivity]. destruct (Z.testbit (medeleg_r h) (q_code q)); reflexivity.
Qed.

Definition trap_ops_m (h : hart) : list status_op :=
  [SetField F_MPP (h_priv h); SetField F_MPIE (sf h F_MIE); SetField F_MIE 0; Submit].
Definition trap_ops_s (h : hart) : list status_op :=
  [SetField F_SPP (h_priv h mod 2); SetField F_SPIE (sf h F_SIE); SetField F_SIE 0; Submit].
Definition mret_ops (h : hart) : list status_op :=
  [SetField F_MIE (sf h F_MPIE); SetField F_MPIE 1; SetField F_MPP 0; Submit].
Definition sret_ops (h : hart) : list status_op :=
  [SetField F_SIE (sf h F_SPIE); SetField F_SPIE 1; SetField F_SPP 0; Submit].

Lemma land1_mod2 x : Z.land x 1 = x mod 2.
Proof. change 1 with (Z.ones 1). rewrite Z.land_ones by lia. reflexivity. Qed.

Lemma sf_range h f : 0 <= sf h f < 2 ^ width f.
Proof. apply field_range. Qed.
Lemma sf_bit h f : width f = 1 -> 0 <= sf h f <= 1.
Proof. intros W. pose proof (sf_range h f) as R. rewrite W in R. change (2 ^ 1) with 2 in R. lia. Qed.

(** The hart a trap into [dest] produces, up to the offered interrupt. *)
Definition trap_result (h : hart) (q : trapreq) (dest : Z) (ops : list status_op) : hart :=
  let m := dest =? 3 in
  {| h_xlen := h_xlen h; h_priv := dest;
     h_status := fold_left (status_step true) ops (h_status h);
     h_ip := h_ip h; h_ie := h_ie h; h_mideleg := h_mideleg h; h_medeleg := h_medeleg h; h_sideleg := h_sideleg h;
     h_m := if m then fill_trapregs (h_xlen h) q (h_m h) else h_m h;
     h_s := if m then h_s h else fill_trapregs (h_xlen h) q (h_s h);
     h_pc := wrap (h_xlen h) (trap_target (t_tvec (if m then h_m h else h_s h)) q); h_branch := true;
     h_avail := h_avail h; h_code := h_code h; h_taken := h_taken h; h_returns := h_returns h |}.

Lemma trap_to_m h q : dest_mode h q = Some 3 -> trap h q =
  Some (check_if (snd (ms_submit (stage_trap 3 (h_priv h) (h_status h)))) (trap_result h q 3 (trap_ops_m h))).
Proof.
  intros D. unfold trap. rewrite D. unfold put_status. do 2 f_equal.
  unfold trap_result, trap_ops_m. cbn [Z.eqb Pos.eqb set_trapregs set_stage set_pc set_priv h_status h_priv h_xlen h_m h_s h_ip h_ie h_mideleg h_medeleg h_sideleg h_pc h_branch h_avail h_code h_taken h_returns fold_left status_step stage_trap].
  unfold sf. rewrite <- ms_get_field.
  assert (forall v s, ms_get F_MIE (ms_stage has_s F_MPP v s) = ms_get F_MIE s) as ->. 
  { intros v s. unfold ms_stage. destruct ((v =? 1) && negb has_s); reflexivity. }
  reflexivity.
Qed.
Lemma trap_to_s h q : dest_mode h q = Some 1 -> trap h q =
  Some (check_if (snd (ms_submit (stage_trap 1 (h_priv h) (h_status h)))) (trap_result h q 1 (trap_ops_s h))).
Proof.
  intros D. unfold trap. rewrite D. unfold put_status. do 2 f_equal.
  unfold trap_result, trap_ops_s. cbn [Z.eqb Pos.eqb set_trapregs set_stage set_pc set_priv h_status h_priv h_xlen h_m h_s h_ip h_ie h_mideleg h_medeleg h_sideleg h_pc h_branch h_avail h_code h_taken h_returns fold_left status_step stage_trap].
  unfold sf. rewrite <- ms_get_field, land1_mod2. reflexivity.
Qed.

(** Status words built by the three-field updates. *)
Lemma ops_field v ops f : forallb status_op_ok ops = true ->
  field_of f (ms_value (fold_left (status_step true) ops (fresh_status v))) =
  sp_cur (fold_left (status_spec_step true) ops (spec_of v)) f.
Proof. intros H. rewrite <- ms_get_field. apply status_history_main, H. Qed.

Lemma small_bit f h : width f = 1 -> 0 <= sf h f mod 2 ^ 1 < 2.
Proof. intros. pose proof (sf_bit h f H). change (2^1) with 2. rewrite Z.mod_small; lia. Qed.

Ltac spec_fields :=
  cbn [fold_left status_spec_step ignored sp_cur sp_staged spec_of];
  match goal with |- sp_cur _ ?f = _ => idtac | _ => idtac end.

Lemma trap_m_fields h f : nothing_staged (h_status h) -> 0 <= h_priv h < 4 ->
  field_of f (ms_value (fold_left (status_step true) (trap_ops_m h) (h_status h))) =
  status_after_trap_m (h_priv h) (sf h) f.
Proof.
  intros N P. pose proof (sf_bit h F_MIE eq_refl). rewrite (staged_fresh _ N).
  rewrite ops_field.
  2: { cbn. rewrite !andb_true_r. apply andb_true_intro. split; apply andb_true_intro; split; try apply Z.leb_le; try apply Z.ltb_lt; lia. }
  unfold trap_ops_m. cbn [fold_left status_spec_step ignored negb andb]. rewrite andb_false_r. 
  destruct f; cbn [sp_cur sp_staged spec_of sfield_eqb off layout fst Z.eqb Pos.eqb status_after_trap_m width snd]; try reflexivity;
    apply Z.mod_small; change (2^1) with 2; change (2^2) with 4; lia.
Qed.
Lemma trap_s_fields h f : nothing_staged (h_status h) -> 0 <= h_priv h < 4 ->
  field_of f (ms_value (fold_left (status_step true) (trap_ops_s h) (h_status h))) =
  status_after_trap_s (h_priv h) (sf h) f.
Proof.
  intros N P. pose proof (sf_bit h F_SIE eq_refl). pose proof (Z.mod_pos_bound (h_priv h) 2 ltac:(lia)). rewrite (staged_fresh _ N).
  rewrite ops_field.
  2: { cbn -[Z.modulo]. rewrite !andb_true_r. apply andb_true_intro. split; apply andb_true_intro; split; try apply Z.leb_le; try apply Z.ltb_lt; lia. }
  unfold trap_ops_s. cbn [fold_left status_spec_step ignored negb andb].
  destruct f; cbn [sp_cur sp_staged spec_of sfield_eqb off layout fst Z.eqb Pos.eqb status_after_trap_s width snd]; try reflexivity;
    apply Z.mod_small; change (2^1) with 2; lia.
Qed.
Lemma mret_fields h f : nothing_staged (h_status h) ->
  field_of f (ms_value (fold_left (status_step true) (mret_ops h) (h_status h))) = status_after_mret (sf h) f.
Proof.
  intros N. pose proof (sf_bit h F_MPIE eq_refl). rewrite (staged_fresh _ N).
  rewrite ops_field.
  2: { cbn. rewrite !andb_true_r. apply andb_true_intro. split; try apply Z.leb_le; try apply Z.ltb_lt; lia. }
  unfold mret_ops. cbn [fold_left status_spec_step ignored negb andb Z.eqb].
  destruct f; cbn [sp_cur sp_staged spec_of sfield_eqb off layout fst Z.eqb Pos.eqb status_after_mret width snd]; try reflexivity;
    apply Z.mod_small; change (2^1) with 2; lia.
Qed.
Lemma sret_fields h f : nothing_staged (h_status h) ->
  field_of f (ms_value (fold_left (status_step true) (sret_ops h) (h_status h))) = status_after_sret (sf h) f.
Proof.
  intros N. pose proof (sf_bit h F_SPIE eq_refl). rewrite (staged_fresh _ N).
  rewrite ops_field.
  2: { cbn. rewrite !andb_true_r. apply andb_true_intro. split; try apply Z.leb_le; try apply Z.ltb_lt; lia. }
  unfold sret_ops. cbn [fold_left status_spec_step ignored negb andb Z.eqb].
  destruct f; cbn [sp_cur sp_staged spec_of sfield_eqb off layout fst Z.eqb Pos.eqb status_after_sret width snd]; try reflexivity;
    apply Z.mod_small; change (2^1) with 2; lia.
Qed.

(** ** Handler address *)
Lemma land3 x : Z.land x 3 = x mod 4.
Proof. change 3 with (Z.ones 2). rewrite Z.land_ones by lia. reflexivity. Qed.
Lemma clear_low2 x : inw 64 x -> Z.land x (wnot 64 3) = x - x mod 4.
Proof.
  intros Hx. pose proof (Z.div_mod x 4 ltac:(lia)) as E.
  assert (Z.land x (wnot 64 3) = Z.shiftl (Z.shiftr x 2) 2) as ->.
  { apply Z.bits_inj'. intros i Hi. rewrite Z.land_spec, wnot_testbit, Z.shiftl_spec by lia.
    destruct (Z.ltb_spec i 2).
    - rewrite Z.testbit_neg_r with (n := i - 2) by lia.
      assert (i = 0 \/ i = 1) as [-> | ->] by lia; cbn; rewrite andb_false_r; reflexivity.
    - rewrite Z.shiftr_spec by lia. replace (i - 2 + 2) with i by lia.
      change 3 with (Z.ones 2). rewrite Z.ones_spec_high by lia. cbn.
      destruct (Z.ltb_spec i 64); [rewrite andb_true_r; reflexivity|].
      rewrite (inw_testbit_high 64 x i) by (assumption || lia). reflexivity. }
  rewrite Z.shiftl_mul_pow2, Z.shiftr_div_pow2 by lia. change (2 ^ 2) with 4. lia.
Qed.

Lemma target_spec w tvec q : (w = 32 \/ w = 64) -> inw w tvec -> 0 <= q_code q < 32 ->
  (q_int q = true \/ tvec mod 4 <> 1) -> wrap w (trap_target tvec q) = handler_addr w tvec q.
Proof.
  intros Hw Ht Hc Hor. unfold trap_target, handler_addr.
  assert (inw 64 tvec) as H64 by (apply (inw_weaken w 64); [lia|exact Ht]).
  rewrite land3, clear_low2 by exact H64.
  pose proof (Z.mod_pos_bound tvec 4 ltac:(lia)).
  pose proof (Z.mod_le tvec 4 ltac:(unfold inw in Ht; lia) ltac:(lia)).
  assert (wrap w (tvec - tvec mod 4) = tvec - tvec mod 4) as EB by (apply wrap_id; unfold inw in *; lia).
  destruct (Z.eqb_spec (tvec mod 4) 1) as [M|M].
  - destruct Hor as [-> |]; [|lia]. cbn [andb].
    rewrite wrap_wrap_le by lia. rewrite (wrap_id 64 (4 * q_code q)) by (unfold inw; lia). reflexivity.
  - rewrite andb_false_r. exact EB.
Qed.
Lemma vectored_exception_target w tvec q : (w = 32 \/ w = 64) -> inw w tvec -> 0 <= q_code q < 32 ->
  tvec mod 4 = 1 -> wrap w (trap_target tvec q) = (tvec - 1 + 4 * q_code q) mod 2 ^ w.
Proof.
  intros Hw Ht Hc M. unfold trap_target.
  assert (inw 64 tvec) as H64 by (apply (inw_weaken w 64); [lia|exact Ht]).
  rewrite land3, clear_low2 by exact H64. rewrite M. cbn [Z.eqb Pos.eqb].
  rewrite wrap_wrap_le by lia. rewrite (wrap_id 64 (4 * q_code q)) by (unfold inw; lia). reflexivity.
Qed.

Lemma fill_spec w q r : (w = 32 \/ w = 64) -> req_ok q -> fill_trapregs w q r = trapregs_after w q r.
Proof.
  intros Hw (Hc & Ht & He). unfold fill_trapregs, trapregs_after. f_equal.
  rewrite wrap_id by (unfold inw; destruct Hw; subst w; lia).
  destruct (q_int q); [|lia].
  assert (Z.land (q_code q) (2 ^ (w - 1)) = 0) as Dj.
  { apply Z.bits_inj'. intros i Hi. rewrite Z.land_spec, Z.bits_0.
    destruct (Z.eq_dec i (w - 1)) as [->|N].
    - rewrite (inw_testbit_high 5 (q_code q)) by (unfold inw; lia). reflexivity.
    - rewrite Z.pow2_bits_false by lia. apply andb_false_r. }
  rewrite Z.add_nocarry_lxor by exact Dj. symmetry. apply Z.lxor_lor. exact Dj.
Qed.

Lemma reserved_kept ops v i : 0 <= i < 64 -> (forall f, in_field i f = false) ->
  forallb status_op_ok ops = true -> forallb not_word32 ops = true ->
  Z.testbit (ms_value (fold_left (status_step true) ops (fresh_status v))) i = Z.testbit v i.
Proof. apply run_outside. Qed.

Lemma ops_ok_m h : 0 <= h_priv h < 4 -> forallb status_op_ok (trap_ops_m h) = true.
Proof. intros P. pose proof (sf_bit h F_MIE eq_refl). cbn. rewrite !andb_true_r. apply andb_true_intro. split; apply andb_true_intro; split; try apply Z.leb_le; try apply Z.ltb_lt; lia. Qed.
Lemma ops_ok_s h : forallb status_op_ok (trap_ops_s h) = true.
Proof. pose proof (sf_bit h F_SIE eq_refl). pose proof (Z.mod_pos_bound (h_priv h) 2 ltac:(lia)). cbn -[Z.modulo]. rewrite !andb_true_r. apply andb_true_intro. split; apply andb_true_intro; split; try apply Z.leb_le; try apply Z.ltb_lt; lia. Qed.
Lemma ops_ok_mret h : forallb status_op_ok (mret_ops h) = true.
Proof. pose proof (sf_bit h F_MPIE eq_refl). cbn. rewrite !andb_true_r. apply andb_true_intro. split; try apply Z.leb_le; try apply Z.ltb_lt; lia. Qed.
Lemma ops_ok_sret h : forallb status_op_ok (sret_ops h) = true.
Proof. pose proof (sf_bit h F_SPIE eq_refl). cbn. rewrite !andb_true_r. apply andb_true_intro. split; try apply Z.leb_le; try apply Z.ltb_lt; lia. Qed.

Definition not_user_delegated (h : hart) (q : trapreq) : Prop :=
  q_int q = true -> Z.testbit (mideleg_r h) (q_code q) = true -> Z.testbit (sideleg_r h) (q_code q) = false.

(** What [h'] keeps from [h]: everything that neither traps nor returns may touch. *)
Definition same_rest (h h' : hart) : Prop :=
  h_xlen h' = h_xlen h /\ h_ip h' = h_ip h /\ h_ie h' = h_ie h /\
  h_mideleg h' = h_mideleg h /\ h_medeleg h' = h_medeleg h /\ h_sideleg h' = h_sideleg h /\
  h_taken h' = h_taken h /\
  (forall i, 0 <= i < 64 -> (forall f, in_field i f = false) ->
     Z.testbit (ms_value (h_status h')) i = Z.testbit (ms_value (h_status h)) i).

Lemma trap_dest_cases p mi me q : trap_dest p mi me q = M_mode \/ trap_dest p mi me q = S_mode.
Proof. unfold trap_dest. destruct (q_int q); [destruct (Z.testbit mi (q_code q))|destruct (_ && _)]; auto. Qed.

(** Full result of a trap, as an equation up to the offer. *)
Lemma trap_main h q : hart_wf h -> req_ok q -> not_user_delegated h q ->
  let d := trap_dest (h_priv h) (mideleg_r h) (medeleg_r h) q in
  exists a c, trap h q = Some (set_offer (trap_result h q d (if d =? 3 then trap_ops_m h else trap_ops_s h)) a c).
Proof.
  intros W Q N d. pose proof (dest_spec h q Q N) as D. fold d in D.
  destruct (trap_dest_cases (h_priv h) (mideleg_r h) (medeleg_r h) q) as [E|E]; fold d in E; rewrite E in *.
  - rewrite (trap_to_m h q D). edestruct check_if_frame as (a & c & ->). exists a, c. reflexivity.
  - rewrite (trap_to_s h q D). edestruct check_if_frame as (a & c & ->). exists a, c. reflexivity.
Qed.

Lemma trap_entry_main h q : hart_wf h -> req_ok q -> not_user_delegated h q ->
  let d := trap_dest (h_priv h) (mideleg_r h) (medeleg_r h) q in
  exists h', trap h q = Some h' /\ h_priv h' = d /\ h_branch h' = true /\ same_rest h h' /\ h_returns h' = h_returns h /\
  (d = M_mode -> h_m h' = trapregs_after (h_xlen h) q (h_m h) /\ h_s h' = h_s h /\
                 forall f, sf h' f = status_after_trap_m (h_priv h) (sf h) f) /\
  (d = S_mode -> h_s h' = trapregs_after (h_xlen h) q (h_s h) /\ h_m h' = h_m h /\
                 forall f, sf h' f = status_after_trap_s (h_priv h) (sf h) f).
Proof.
  intros W Q N d. destruct (trap_main h q W Q N) as (a & c & E). fold d in E.
  destruct W as (Wx & Wp & Ws & _). eexists. split; [exact E|].
  cbn [set_offer trap_result h_priv h_branch h_returns h_m h_s]. split; [reflexivity|]. split; [reflexivity|].
  split; [|split; [reflexivity|split]].
  - unfold same_rest. cbn [set_offer trap_result h_xlen h_ip h_ie h_mideleg h_medeleg h_sideleg h_taken h_status]. ssplit; try reflexivity.
    intros i Hi Hf. rewrite (staged_fresh _ Ws). destruct (d =? 3); (rewrite reserved_kept; [reflexivity|assumption|assumption| |]).
    + apply ops_ok_m; exact Wp. + reflexivity. + apply ops_ok_s. + reflexivity.
  - intros ->. cbn [M_mode Z.eqb Pos.eqb]. ssplit; [apply fill_spec; assumption|reflexivity|].
    intros f. unfold sf at 1. cbn [set_offer trap_result h_status]. apply trap_m_fields; assumption.
  - intros ->. cbn [S_mode Z.eqb Pos.eqb]. ssplit; [apply fill_spec; assumption|reflexivity|].
    intros f. unfold sf at 1. cbn [set_offer trap_result h_status]. apply trap_s_fields; assumption.
Qed.

Definition regs_of (d : Z) (h : hart) : trapregs := if d =? M_mode then h_m h else h_s h.
Lemma trap_pc_main h q : hart_wf h -> req_ok q -> not_user_delegated h q ->
  let d := trap_dest (h_priv h) (mideleg_r h) (medeleg_r h) q in
  (q_int q = true \/ t_tvec (regs_of d h) mod 4 <> 1) ->
  exists h', trap h q = Some h' /\ h_pc h' = handler_addr (h_xlen h) (t_tvec (regs_of d h)) q.
Proof.
  intros W Q N d O. destruct (trap_main h q W Q N) as (a & c & E). fold d in E.
  eexists. split; [exact E|]. cbn [set_offer trap_result h_pc].
  unfold regs_of, M_mode in *. apply target_spec; [apply W| |apply Q|exact O].
  destruct W as (_ & _ & _ & _ & _ & _ & _ & _ & Wm & Ws & _). destruct (d =? 3); [apply Wm|apply Ws].
Qed.

Lemma exception_up h q h' : hart_wf h -> legal_priv (h_priv h) -> req_ok q -> q_int q = false -> trap h q = Some h' -> h_priv h <= h_priv h'.
Proof.
  intros W P Q I E. destruct (trap_entry_main h q W Q) as (h1 & E1 & Hp & _); [unfold not_user_delegated; congruence|].
  rewrite E in E1. inversion E1; subst h1. rewrite Hp. unfold trap_dest. rewrite I.
  unfold legal_priv, U_mode, S_mode, M_mode in *. destruct (Z.testbit (medeleg_r h) (q_code q)), P as [-> | [-> | ->]]; cbn; lia.
Qed.

(** ** Returns *)
Definition ret_result (h : hart) (pc p : Z) (ops : list status_op) : hart :=
  {| h_xlen := h_xlen h; h_priv := p; h_status := fold_left (status_step true) ops (h_status h);
     h_ip := h_ip h; h_ie := h_ie h; h_mideleg := h_mideleg h; h_medeleg := h_medeleg h; h_sideleg := h_sideleg h;
     h_m := h_m h; h_s := h_s h; h_pc := wrap (h_xlen h) pc; h_branch := true;
     h_avail := h_avail h; h_code := h_code h; h_taken := h_taken h; h_returns := h_returns h + 1 |}.

Lemma mret_eq h addr : h_priv h = M_mode -> exists a c,
  mret h addr = Some (set_offer (ret_result h (t_epc (h_m h)) (sf h F_MPP) (mret_ops h)) a c).
Proof.
  intros P. unfold mret. rewrite P. cbn [M_mode Z.eqb Pos.eqb negb].
  unfold put_status. edestruct check_if_frame as (a & c & ->). exists a, c. do 2 f_equal.
  unfold ret_result, mret_ops, sf. cbn [signal_return set_counts set_priv set_stage set_pc h_status h_priv h_xlen h_m h_s h_ip h_ie h_mideleg h_medeleg h_sideleg h_pc h_branch h_avail h_code h_taken h_returns fold_left status_step].
  rewrite !ms_get_field. reflexivity.
Qed.
Lemma sret_eq h addr : sret_illegal h = false -> exists a c,
  sret h addr = Some (set_offer (ret_result h (t_epc (h_s h)) (sf h F_SPP) (sret_ops h)) a c).
Proof.
  intros P. unfold sret. rewrite P.
  unfold put_status. edestruct check_if_frame as (a & c & ->). exists a, c. do 2 f_equal.
  unfold ret_result, sret_ops, sf. cbn [signal_return set_counts set_priv set_stage set_pc h_status h_priv h_xlen h_m h_s h_ip h_ie h_mideleg h_medeleg h_sideleg h_pc h_branch h_avail h_code h_taken h_returns fold_left status_step].
  rewrite !ms_get_field. reflexivity.
Qed.

Lemma mret_effect_main h addr : hart_wf h -> h_priv h = M_mode ->
  exists h', mret h addr = Some h' /\ h_priv h' = sf h F_MPP /\ h_pc h' = t_epc (h_m h) /\ h_branch h' = true /\
    (forall f, sf h' f = status_after_mret (sf h) f) /\ same_rest h h' /\ h_m h' = h_m h /\ h_s h' = h_s h /\
    h_returns h' = h_returns h + 1.
Proof.
  intros W P. destruct (mret_eq h addr P) as (a & c & E). eexists. split; [exact E|].
  destruct W as (Wx & Wp & Ws & Wv & Wi & We & Wd & Wd0 & Wm & Wss & Wa).
  cbn [set_offer ret_result h_priv h_pc h_branch h_m h_s h_returns]. ssplit; try reflexivity.
  - apply wrap_id. apply Wm.
  - intros f. unfold sf at 1. cbn [set_offer ret_result h_status]. apply mret_fields, Ws.
  - unfold same_rest. cbn [set_offer ret_result h_xlen h_ip h_ie h_mideleg h_medeleg h_sideleg h_taken h_status]. ssplit; try reflexivity.
    intros i Hi Hf. rewrite (staged_fresh _ Ws). rewrite reserved_kept; [reflexivity|assumption|assumption| |reflexivity]. apply ops_ok_mret.
Qed.
Lemma sret_effect_main h addr : hart_wf h -> sret_illegal h = false ->
  exists h', sret h addr = Some h' /\ h_priv h' = sf h F_SPP /\ h_pc h' = t_epc (h_s h) /\ h_branch h' = true /\
    (forall f, sf h' f = status_after_sret (sf h) f) /\ same_rest h h' /\ h_m h' = h_m h /\ h_s h' = h_s h /\
    h_returns h' = h_returns h + 1.
Proof.
  intros W P. destruct (sret_eq h addr P) as (a & c & E). eexists. split; [exact E|].
  destruct W as (Wx & Wp & Ws & Wv & Wi & We & Wd & Wd0 & Wm & Wss & Wa).
  cbn [set_offer ret_result h_priv h_pc h_branch h_m h_s h_returns]. ssplit; try reflexivity.
  - apply wrap_id. apply Wss.
  - intros f. unfold sf at 1. cbn [set_offer ret_result h_status]. apply sret_fields, Ws.
  - unfold same_rest. cbn [set_offer ret_result h_xlen h_ip h_ie h_mideleg h_medeleg h_sideleg h_taken h_status]. ssplit; try reflexivity.
    intros i Hi Hf. rewrite (staged_fresh _ Ws). rewrite reserved_kept; [reflexivity|assumption|assumption| |reflexivity]. apply ops_ok_sret.
Qed.
