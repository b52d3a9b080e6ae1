(** Proofs for C91, C92. *)
From Coq Require Import ZArith List String Bool Lia.
From Verif Require Import Bits FmtSpec FmtModel FmtProofs DecSpec DecModel IntSpec Memory AccessSpec AccessModel CsrSpec StatusSpec StatusModel StatusProofs
  XipSpec XipModel XipProofs HartSpec HartModel HartProofs HartProofs2 HartProofs3 HartProps StepSpec StepModel StepCheck StepProofs StepTables MachSpec MachModel MachCheck.
Import ListNotations.
Local Open Scope string_scope.
Local Open Scope Z_scope.

(** The architectural state. *)
Definition abs (t : top) : machine :=
  {| m_user := user t; m_priv := h_priv (tp t); m_status := sf (tp t); m_m := h_m (tp t); m_s := h_s (tp t);
     m_mscratch := t_mscr t; m_sscratch := t_sscr t; m_mie := mie_as_uint (h_xlen (tp t)) (h_ie (tp t)); m_mideleg := mideleg_r (tp t); m_medeleg := medeleg_r (tp t) |}.
(** Only an enabled interrupt is on offer. *)
Definition off_ok (p : HartModel.hart) : Prop := h_avail p = true -> Z.testbit (h_ie p) (h_code p) = true /\
  (if Z.testbit (mideleg_r p) (h_code p) then s_on (h_priv p) (sf p F_SIE) else m_on (h_priv p) (sf p F_MIE)) = true.
Definition mid_ok (xlen : Z) (t : top) : Prop :=
  hart_wf (tp t) /\ h_xlen (tp t) = xlen /\ machine_ok xlen (abs t) /\ off_ok (tp t).
(** Between instructions none is. *)
Definition top_ok (xlen : Z) (t : top) : Prop :=
  hart_wf (tp t) /\ h_xlen (tp t) = xlen /\ machine_ok xlen (abs t) /\ h_avail (tp t) = false.
Lemma idle_off p : h_avail p = false -> off_ok p.
Proof. intros A B. congruence. Qed.
Lemma top_mid xlen t : top_ok xlen t -> mid_ok xlen t.
Proof. intros (W & X & M & A). split; [exact W |]. split; [exact X |]. split; [exact M | exact (idle_off _ A)]. Qed.

(** Same privileged state, apart from pc, pending interrupts and counters. *)
Record like (p p' : HartModel.hart) : Prop := {
  lk_xlen : h_xlen p' = h_xlen p; lk_priv : h_priv p' = h_priv p; lk_status : h_status p' = h_status p; lk_ie : h_ie p' = h_ie p;
  lk_mi : h_mideleg p' = h_mideleg p; lk_me : h_medeleg p' = h_medeleg p; lk_si : h_sideleg p' = h_sideleg p;
  lk_m : h_m p' = h_m p; lk_s : h_s p' = h_s p }.
Lemma like_refl p : like p p.
Proof. constructor; reflexivity. Qed.
Lemma like_trans p q r : like p q -> like q r -> like p r.
Proof. intros [] []. constructor; congruence. Qed.
Lemma like_begin p pc : like p (begin_inst p pc).
Proof. constructor; reflexivity. Qed.
Lemma like_check b p : like p (check_if b p).
Proof. destruct (check_if_frame b p) as (a & c & ->). constructor; reflexivity. Qed.
Lemma begin_wf p pc : hart_wf p -> hart_wf (begin_inst p pc).
Proof. exact (fun W => W). Qed.

(** ** Offers *)
Lemma off_check b p : legal_priv (h_priv p) -> off_ok p -> off_ok (check_if b p).
Proof.
  intros L O. destruct b; [| exact O]. cbn [check_if]. unfold check_for_interrupt.
  pose proof (select_spec p L) as S. destruct (select_interrupt p) as [c |]; [| exact O].
  intros _. cbn [set_offer h_ie h_code]. destruct S as [E _]. unfold eligible in E.
  assert (K : iv_enab (view p) c = true).
  { apply orb_true_iff in E. destruct E as [E | E]; [unfold m_eligible in E | unfold s_eligible in E];
      rewrite !andb_true_iff in E; tauto. }
  assert (G : (if Z.testbit (mideleg_r p) c then s_on (h_priv p) (sf p F_SIE) else m_on (h_priv p) (sf p F_MIE)) = true).
  { apply orb_true_iff in E. destruct E as [E | E]; [unfold m_eligible, irq_level_m in E | unfold s_eligible, irq_level_s in E];
      cbn [view iv_deleg iv_udeleg iv_priv iv_mie iv_sie] in E; destruct (Z.testbit (mideleg_r p) c);
      cbn [negb andb] in E; rewrite ?andb_false_r in E; cbn [andb] in E; try discriminate E; apply andb_true_iff in E; apply E. }
  cbn [view iv_enab] in K. unfold mie_as_uint in K. rewrite !Z.land_spec in K. apply andb_true_iff in K. destruct K as [K _].
  unfold wrap in K. destruct (Z.lt_ge_cases c 32).
  - rewrite Z.mod_pow2_bits_low in K by assumption. split; [exact K | exact G].
  - rewrite Z.mod_pow2_bits_high in K by (split; [discriminate | assumption]). discriminate K.
Qed.
Lemma legal_dest p mi me q : legal_priv (trap_dest p mi me q).
Proof. destruct (trap_dest_cases p mi me q) as [-> | ->]; [right; right | right; left]; reflexivity. Qed.
Lemma trap_off p q p' : h_avail p = false -> trap p q = Some p' -> off_ok p'.
Proof.
  intros O E. destruct (dest_mode p q) as [d |] eqn:D; [| unfold trap in E; rewrite D in E; discriminate].
  destruct (dest_mode_range _ _ _ D) as [-> | [-> | ->]].
  - unfold trap in E. rewrite D in E. apply Some_inj in E. subst. exact (idle_off _ O).
  - rewrite (trap_to_s p q D) in E. apply Some_inj in E. subst p'. apply off_check; [right; left; reflexivity | apply idle_off; exact O].
  - rewrite (trap_to_m p q D) in E. apply Some_inj in E. subst p'. apply off_check; [right; right; reflexivity | apply idle_off; exact O].
Qed.
Lemma mpp_legal p : sf p F_MPP <> 2 -> legal_priv (sf p F_MPP).
Proof.
  intros N. pose proof (sf_range p F_MPP) as R. change (2 ^ width F_MPP) with 4 in R.
  unfold legal_priv, U_mode, S_mode, M_mode. lia.
Qed.
Lemma spp_legal p : legal_priv (sf p F_SPP).
Proof.
  pose proof (sf_range p F_SPP) as R. change (2 ^ width F_SPP) with 2 in R. unfold legal_priv, U_mode, S_mode, M_mode. lia.
Qed.
Lemma mret_off p a p' : sf p F_MPP <> 2 -> h_avail p = false -> mret p a = Some p' -> off_ok p'.
Proof.
  intros N O. unfold mret. destruct (negb (h_priv p =? 3)); [apply trap_off, O |]. intros E. apply Some_inj in E. subst p'.
  unfold put_status. apply off_check; [| apply idle_off; exact O]. cbn [h_priv]. cbn [signal_return set_counts set_priv h_priv HartModel.set_pc h_status].
  rewrite ms_get_field. exact (mpp_legal p N).
Qed.
Lemma sret_off p a p' : h_avail p = false -> sret p a = Some p' -> off_ok p'.
Proof.
  intros O. unfold sret. destruct (sret_illegal p); [apply trap_off, O |]. intros E. apply Some_inj in E. subst p'.
  unfold put_status. apply off_check; [| apply idle_off; exact O]. cbn [h_priv]. cbn [signal_return set_counts set_priv h_priv HartModel.set_pc h_status].
  rewrite ms_get_field. exact (spp_legal p).
Qed.

(** What the devices do. *)
Lemma line_run ops : forall p p', hart_wf p -> legal_priv (h_priv p) -> off_ok p -> forallb line_op ops = true -> hart_run p ops = Some p' ->
  like p p' /\ off_ok p' /\ h_pc p' = h_pc p /\ h_branch p' = h_branch p.
Proof.
  induction ops as [| o ops IH]; intros p p' W L O F E; cbn [hart_run] in E.
  - apply Some_inj in E. subst. split; [apply like_refl | auto].
  - cbn [forallb] in F. apply andb_true_iff in F. destruct F as [F1 F].
    destruct (hart_step p o) as [p1 |] eqn:E1; [| discriminate E].
    assert (X : hart_wf p1 /\ like p p1 /\ off_ok p1 /\ h_pc p1 = h_pc p /\ h_branch p1 = h_branch p).
    { split.
      - eapply hart_step_wf; [exact W | | exact E1]. destruct o; cbn in F1 |- *; try discriminate F1; exact F1.
      - assert (CK : forall b ip, let p2 := put_ip p (ip, b) in like p p2 /\ off_ok p2 /\ h_pc p2 = h_pc p /\ h_branch p2 = h_branch p).
        { intros b ip p2. unfold p2, put_ip. cbn [fst snd]. split; [eapply like_trans; [| apply like_check]; constructor; reflexivity |].
          split; [apply off_check; assumption |]. destruct (check_if_frame b {| h_xlen := h_xlen p; h_priv := h_priv p; h_status := h_status p; h_ip := ip; h_ie := h_ie p;
            h_mideleg := h_mideleg p; h_medeleg := h_medeleg p; h_sideleg := h_sideleg p; h_m := h_m p; h_s := h_s p; h_pc := h_pc p; h_branch := h_branch p;
            h_avail := h_avail p; h_code := h_code p; h_taken := h_taken p; h_returns := h_returns p |}) as (x & y & ->). split; reflexivity. }
        destruct o as [| | | | | i v | v | |]; try discriminate F1; cbn [hart_step] in E1; apply Some_inj in E1; subst p1.
        + destruct (mip_setter i v (h_ip p)) as [ip b]. apply CK.
        + apply CK.
        + change (check_for_interrupt p) with (check_if true p). split; [apply like_check |]. split; [apply off_check; assumption |].
          destruct (check_if_frame true p) as (x & y & ->). split; reflexivity. }
    destruct X as (W1 & L1 & O1 & P1 & B1).
    destruct (IH p1 p' W1) as (L2 & O2 & P2 & B2); try assumption; [rewrite (lk_priv _ _ L1); exact L |].
    split; [eapply like_trans; eassumption |]. split; [exact O2 |]. split; congruence.
Qed.

(** ** Instructions of StepModel.v *)
Definition out_hart (out : outcome) : StepSpec.hart := match out with Done u | Raise _ u => u end.
Lemma write_x_fs h iw d v h' : write_x h iw d v = Some h' -> hfs h' = hfs h.
Proof. unfold write_x. destruct d; intros E; try discriminate E; apply Some_inj in E; subst h'; try destruct (_ && _); reflexivity. Qed.
Lemma exec_fs S lw misa max h iw ir out : exec S lw misa max h iw ir = Some out -> hfs (out_hart out) = hfs h.
Proof.
  assert (NX : forall s k, next lw s k = Some out -> hfs k = hfs h -> hfs (out_hart out) = hfs h).
  { intros s k E <-. apply Some_inj in E. subst. reflexivity. }
  assert (FC : forall w s l c, finish_ctl w lw s h iw l c = Some out -> hfs (out_hart out) = hfs h).
  { intros w s l c. unfold finish_ctl. destruct (c_trap c); [intros E; apply Some_inj in E; subst; reflexivity |].
    destruct (c_link c); [destruct l as [d |]; [| discriminate]; destruct (write_x h iw d z) as [h' |] eqn:E; [| discriminate]; apply write_x_fs in E |];
      intros X; apply Some_inj in X; subst out; destruct (c_pc c); try exact E; reflexivity. }
  assert (EC : forall w child d x k, exec_child w h iw child d x = Some k -> hfs k = hfs h).
  { intros w child d x k E. unfold exec_child in E.
    destruct child; try exact (None_some _ E); destruct d; try exact (None_some _ E);
      first [apply Some_inj in E; subst k; reflexivity
            | match type of E with (if ?b then _ else _) = _ => destruct b; [exact (write_x_fs _ _ _ _ _ E) | exact (None_some _ E)] end]. }
  unfold exec. cbv zeta. intros E.
  repeat first
    [ exact (None_some _ E)
    | solve [eapply FC; exact E]
    | solve [eapply NX; [exact E | first [reflexivity | eapply write_x_fs; eassumption | eapply EC; eassumption]]]
    | solve [apply Some_inj in E; subst; reflexivity]
    | match type of E with match ?x with _ => _ end = _ => destruct x eqn:? end
    | match type of E with (if ?x then _ else _) = _ => destruct x eqn:? end ].
Qed.
Lemma exec_opcode_fs S lw misa max h iw o out : exec_opcode S lw misa max h iw o = Some out -> hfs (out_hart out) = hfs h.
Proof. unfold exec_opcode. destruct (find _ _); [apply exec_fs | discriminate]. Qed.

(** ** Exceptions *)
Lemma pow_le xlen : xlen = 32 \/ xlen = 64 -> 2 ^ xlen <= 2 ^ 64.
Proof. intros [-> | ->]; [discriminate | apply Z.le_refl]. Qed.
Lemma raise_ok xlen has_c limit m32 m16 h r u : xlen = 32 \/ xlen = 64 -> hart_ok xlen h ->
  steps_to xlen has_c limit m32 m16 h (Raise r u) -> req_ok (exc r) /\ AccessSpec.t_epc r = hpc h /\ unchanged h u.
Proof.
  intros X OK ST. pose proof (pow_le xlen X) as LE.
  assert (P0 : 0 < 2 ^ xlen) by (apply pow2_pos; lia).
  assert (PC : 0 <= hpc h < 2 ^ 64) by (destruct OK; lia).
  assert (G : forall c v, 0 <= c < 32 -> 0 <= v < 2 ^ 64 -> raises h {| AccessSpec.t_tval := v; AccessSpec.t_code := c; AccessSpec.t_epc := hpc h |} (Raise r u) ->
    req_ok (exc r) /\ AccessSpec.t_epc r = hpc h /\ unchanged h u).
  { intros c v Hc Hv (h' & E & U). injection E as -> ->. split; [| split; [reflexivity | exact U]]. unfold req_ok, exc. cbn. lia. }
  assert (M : forall a, 0 <= a mod 2 ^ xlen < 2 ^ 64) by (intros a; pose proof (Z.mod_pos_bound a (2 ^ xlen) P0); lia).
  assert (T : forall size l c, (forall q, c_trap c = Some q -> exists v, q = {| AccessSpec.t_tval := v; AccessSpec.t_code := 0; AccessSpec.t_epc := hpc h |} /\ 0 <= v < 2 ^ 64) ->
     transfers xlen size h l c (Raise r u) -> req_ok (exc r) /\ AccessSpec.t_epc r = hpc h /\ unchanged h u).
  { intros size l c CT. unfold transfers. destruct (c_trap c) as [q |].
    - destruct (CT q eq_refl) as (v & -> & V). intros R. exact (G 0 v ltac:(lia) V R).
    - intros (h' & E & _). discriminate E. }
  assert (J : forall a lk q, 0 <= a < 2 ^ 64 -> c_trap (jump_spec has_c a lk (hpc h)) = Some q ->
     exists v, q = {| AccessSpec.t_tval := v; AccessSpec.t_code := 0; AccessSpec.t_epc := hpc h |} /\ 0 <= v < 2 ^ 64).
  { intros a lk q A. unfold jump_spec. destruct (misaligned has_c a); cbn [c_trap]; [| discriminate]. intros E. injection E as <-. exists a. split; [reflexivity | exact A]. }
  inversion ST as [_ R | iw e i _ _ _ _ _ EX | iw _ _ _ R].
  - exact (G 1 (hpc h) ltac:(lia) PC R).
  - destruct i; cbn [executes] in EX.
    + destruct EX as (n & va & vb & x & h' & _ & _ & _ & _ & E & _). discriminate E.
    + destruct EX as (n & va & vb & h' & _ & _ & _ & E & _). discriminate E.
    + destruct EX as (n & o & _ & _ & R). eapply T; [| exact R]. intros q. apply J. apply M.
    + destruct EX as (n & b & o & _ & _ & _ & R). eapply T; [| exact R]. intros q. apply J.
      unfold even_part. set (y := (b + o) mod 2 ^ xlen). assert (0 <= y < 2 ^ 64) by apply M. pose proof (Z.mod_pos_bound y 2 ltac:(lia)). pose proof (Z.mod_le y 2 ltac:(lia) ltac:(lia)). lia.
    + destruct EX as (va & vb & o & _ & _ & _ & R). eapply T; [| exact R]. intros q. destruct (taken xlen c va vb); [| discriminate].
      destruct (misaligned _ _); cbn [c_trap]; [| discriminate]. intros E. injection E as <-. eexists. split; [reflexivity | apply M].
    + destruct EX as (n & b & o & _ & _ & _ & R). cbv zeta in R. destruct (_ <? _); [exact (G 5 _ ltac:(lia) (M _) R) |].
      destruct R as (x & h' & _ & E & _). discriminate E.
    + destruct EX as (b & o & x & _ & _ & _ & R). cbv zeta in R. destruct (_ <? _); [exact (G 7 _ ltac:(lia) (M _) R) |].
      destruct R as (h' & E & _). discriminate E.
    + destruct EX as (n & b & o & _ & _ & _ & R). cbv zeta in R. destruct (_ =? _); [exact (G 2 0 ltac:(lia) ltac:(lia) R) |].
      destruct (_ <? _); [exact (G 5 _ ltac:(lia) (M _) R) |]. destruct R as (x & h' & _ & E & _). discriminate E.
    + destruct EX as (b & o & x & _ & _ & _ & R). cbv zeta in R. destruct (_ =? _); [exact (G 2 0 ltac:(lia) ltac:(lia) R) |].
      destruct (_ <? _); [exact (G 7 _ ltac:(lia) (M _) R) |]. destruct R as (h' & E & _). discriminate E.
    + destruct EX as (h' & E & _). discriminate E.
  - exact (G 2 0 ltac:(lia) ltac:(lia) R).
Qed.

Lemma handler_ok xlen tvec q : xlen = 32 \/ xlen = 64 -> 0 <= tvec < 2 ^ xlen -> 0 <= handler_addr xlen tvec q < 2 ^ xlen /\ handler_addr xlen tvec q mod 2 = 0.
Proof.
  intros X R. unfold handler_addr. assert (P0 : 0 < 2 ^ xlen) by (apply pow2_pos; lia).
  assert (B : exists k, tvec - tvec mod 4 = 4 * k /\ 0 <= 4 * k <= tvec).
  { exists (tvec / 4). pose proof (Z.div_mod tvec 4 ltac:(lia)). pose proof (Z.mod_pos_bound tvec 4 ltac:(lia)). clear - H H0 R. split; [lia |]. split; [| lia].
    assert (0 <= tvec / 4) by (apply Z.div_pos; lia). lia. }
  destruct B as (k & -> & K). destruct (_ && _).
  - split; [apply Z.mod_pos_bound; exact P0 |]. replace (4 * k + 4 * q_code q) with ((2 * (k + q_code q)) * 2) by ring.
    destruct X as [-> | ->]; [change (2 ^ 32) with (2 ^ 31 * 2) | change (2 ^ 64) with (2 ^ 63 * 2)];
      rewrite Z.mul_mod_distr_r by lia; apply Z.mod_mul; lia.
  - split; [lia |]. replace (4 * k) with (2 * k * 2) by ring. apply Z.mod_mul. lia.
Qed.
Lemma even_wrap xlen x : xlen = 32 \/ xlen = 64 -> x mod 2 = 0 -> (x mod 2 ^ xlen) mod 2 = 0.
Proof.
  intros X E. apply Z.mod_divide in E; [| lia]. destruct E as [q ->].
  destruct X as [-> | ->]; [change (2 ^ 32) with (2 ^ 31 * 2) | change (2 ^ 64) with (2 ^ 63 * 2)];
    rewrite Z.mul_mod_distr_r by lia; apply Z.mod_mul; lia.
Qed.
Lemma keeps_ok xlen h h' : hart_ok xlen h -> keeps_x h h' -> keeps_m h h' -> (forall n, hf h' n = hf h n) ->
  0 <= hpc h' < 2 ^ xlen -> hpc h' mod 2 = 0 -> hart_ok xlen h'.
Proof.
  intros [A B C _ _ D] KX KM KF P E. constructor; try assumption.
  - rewrite KX. exact A.
  - intros n. rewrite KX. apply B.
  - intros n. rewrite KF. apply C.
  - intros a. rewrite KM. apply D.
Qed.
Lemma user_fs t : hfs (user t) = sf (tp t) F_FS.
Proof. cbn [user hfs]. rewrite ms_get_field. reflexivity. Qed.

(** A trap enters its handler. *)
Lemma enter_ok xlen t p q : mid_ok xlen t -> like (tp t) p -> hart_wf p -> req_ok q -> not_user_delegated p q ->
  let d := trap_dest (m_priv (abs t)) (m_mideleg (abs t)) (m_medeleg (abs t)) q in
  (q_int q = true \/ t_tvec (mode_regs (abs t) d) mod 4 <> 1) -> q_epc q mod 2 = 0 ->
  exists p', trap p q = Some p' /\ h_branch p' = true /\ hart_wf p' /\ (h_avail p = false -> off_ok p') /\ h_xlen p' = xlen /\
    forall t1, (forall n, hx (tu t1) n = hx (tu t) n) -> (forall n, hf (tu t1) n = hf (tu t) n) -> (forall a, hm (tu t1) a = hm (tu t) a) ->
      hpc (tu t1) = h_pc p' -> like p' (tp t1) -> t_mscr t1 = t_mscr t -> t_sscr t1 = t_sscr t ->
      enters xlen (abs t) q (abs t1) /\ machine_ok xlen (abs t1).
Proof.
  intros (W & X & MO & _) LK WP Q NU d V EE.
  assert (DM : mideleg_r p = mideleg_r (tp t)) by (unfold mideleg_r; rewrite (lk_mi _ _ LK); reflexivity).
  assert (DE : medeleg_r p = medeleg_r (tp t)) by (unfold medeleg_r; rewrite (lk_me _ _ LK); reflexivity).
  assert (DD : trap_dest (h_priv p) (mideleg_r p) (medeleg_r p) q = d) by (rewrite (lk_priv _ _ LK), DM, DE; reflexivity).
  assert (SF : forall f, sf p f = sf (tp t) f) by (intros f; unfold sf; rewrite (lk_status _ _ LK); reflexivity).
  assert (RG : regs_of d p = mode_regs (abs t) d) by (unfold regs_of, mode_regs; cbn [abs m_m m_s]; rewrite (lk_m _ _ LK), (lk_s _ _ LK); reflexivity).
  assert (XP : h_xlen p = xlen) by (rewrite (lk_xlen _ _ LK); exact X).
  assert (XC : xlen = 32 \/ xlen = 64) by (rewrite <- XP; apply WP).
  destruct (trap_entry_main p q WP Q NU) as (p' & E & PR & BR & SR & _ & TM & TS). rewrite DD in PR, TM, TS.
  destruct (trap_pc_main p q WP Q NU) as (p'' & E' & PC); [rewrite DD, RG; exact V |]. rewrite DD, RG, XP in PC.
  rewrite E in E'. apply Some_inj in E'. subst p''.
  destruct SR as (SX & _ & SE & SM & SD & _ & _ & _).
  exists p'. split; [exact E |]. split; [exact BR |]. split; [eapply trap_wf; eassumption |]. split; [intros AV; eapply trap_off; eassumption |].
  split; [rewrite SX; exact XP |].
  intros t1 KX KF KM PC1 L1 S1 S2.
  assert (SF1 : forall f, sf (tp t1) f = sf p' f) by (intros f; unfold sf; rewrite (lk_status _ _ L1); reflexivity).
  assert (ST : forall f, f <> F_MPP -> f <> F_MPIE -> f <> F_MIE -> f <> F_SPP -> f <> F_SPIE -> f <> F_SIE -> sf (tp t1) f = sf (tp t) f).
  { intros f A1 A2 A3 A4 A5 A6. rewrite SF1, <- SF. destruct (trap_dest_cases (h_priv p) (mideleg_r p) (medeleg_r p) q) as [D | D]; rewrite DD in D.
    - destruct (TM D) as (_ & _ & F). rewrite F. destruct f; try reflexivity; congruence.
    - destruct (TS D) as (_ & _ & F). rewrite F. destruct f; try reflexivity; congruence. }
  assert (TV : 0 <= t_tvec (mode_regs (abs t) d) < 2 ^ xlen).
  { destruct W as (_ & _ & _ & _ & _ & _ & _ & _ & Wm & Ws & _). unfold mode_regs. cbn [abs m_m m_s]. rewrite X in Wm, Ws.
    destruct (d =? M_mode); [apply Wm | apply Ws]. }
  destruct (handler_ok xlen _ q XC TV) as [HR HE].
  assert (FS : hfs (user t1) = hfs (user t)) by (rewrite !user_fs; apply ST; discriminate).
  assert (HP : hpc (m_user (abs t1)) = handler_addr xlen (t_tvec (mode_regs (abs t) d)) q) by (cbn [abs m_user user hpc]; rewrite PC1; exact PC).
  assert (SRG : same_regs (abs t) (abs t1)).
  { split; [exact KX |]. split; [split; [exact KF | exact FS] | exact KM]. }
  split.
  - unfold enters. fold d. split; [exact SRG |]. split; [| split; [| split; [exact HP |]]].
    + split; [exact S1 |]. split; [exact S2 |]. cbn [abs m_mie m_mideleg m_medeleg]. unfold mideleg_r, medeleg_r.
      rewrite (lk_mi _ _ L1), (lk_me _ _ L1), SM, SD, (lk_mi _ _ LK), (lk_me _ _ LK), (lk_ie _ _ L1), SE, (lk_ie _ _ LK),
        (lk_xlen _ _ L1), SX, (lk_xlen _ _ LK). repeat split.
    + cbn [abs m_priv]. rewrite (lk_priv _ _ L1). exact PR.
    + cbn [abs m_m m_s m_status m_priv]. rewrite (lk_m _ _ L1), (lk_s _ _ L1).
      assert (SS : forall (g : Z -> (sfield -> Z) -> sfield -> Z) f, (forall x y, (forall f, x f = y f) -> g (h_priv p) x f = g (h_priv p) y f) ->
        sf p' f = g (h_priv p) (sf p) f -> sf (tp t1) f = g (h_priv (tp t)) (sf (tp t)) f).
      { intros g f EX Y. rewrite SF1, Y, <- (lk_priv _ _ LK). apply EX. exact SF. }
      split; intros D.
      * destruct (TM D) as (A & B & C). rewrite A, B, XP, (lk_m _ _ LK), (lk_s _ _ LK). split; [reflexivity |]. split; [reflexivity |].
        intros f. apply (SS status_after_trap_m); [| apply C]. intros x y H. destruct f; cbn; auto.
      * destruct (TS D) as (A & B & C). rewrite A, B, XP, (lk_m _ _ LK), (lk_s _ _ LK). split; [reflexivity |]. split; [reflexivity |].
        intros f. apply (SS status_after_trap_s); [| apply C]. intros x y H. destruct f; cbn; auto.
  - destruct MO as [MU MF MP MM MS ME].
    assert (EPC : (q_epc q mod 2 ^ xlen) mod 2 = 0) by (apply even_wrap; assumption).
    constructor.
    + apply (keeps_ok xlen (user t)); [exact MU | exact KX | exact KM | exact KF | |]; rewrite HP; assumption.
    + apply user_fs.
    + cbn [abs m_priv]. rewrite (lk_priv _ _ L1), PR. apply legal_dest.
    + cbn [abs m_status]. rewrite SF1. destruct (trap_dest_cases (h_priv p) (mideleg_r p) (medeleg_r p) q) as [D | D]; rewrite DD in D.
      * destruct (TM D) as (_ & _ & F). rewrite F. cbn [status_after_trap_m]. rewrite (lk_priv _ _ LK).
        unfold U_mode, S_mode, M_mode in MP. cbn [abs m_priv] in MP. lia.
      * destruct (TS D) as (_ & _ & F). rewrite F. cbn [status_after_trap_s]. rewrite SF. exact MM.
    + cbn [abs m_mscratch m_sscratch]. rewrite S1, S2. exact MS.
    + cbn [abs m_m m_s] in ME |- *. rewrite (lk_m _ _ L1), (lk_s _ _ L1).
      destruct (trap_dest_cases (h_priv p) (mideleg_r p) (medeleg_r p) q) as [D | D]; rewrite DD in D.
      * destruct (TM D) as (A & B & _). rewrite A, B, (lk_s _ _ LK). cbn [trapregs_after HartSpec.t_epc]. rewrite XP. split; [exact EPC | apply ME].
      * destruct (TS D) as (A & B & _). rewrite A, B, (lk_m _ _ LK). cbn [trapregs_after HartSpec.t_epc]. rewrite XP. split; [apply ME | exact EPC].
Qed.

(** ** CSR accesses *)
Definition status_put (h : HartModel.hart) (st : mstatus) : HartModel.hart := set_stage h st.
Definition ie_put (h : HartModel.hart) (e : Z) : HartModel.hart :=
  {| h_xlen := h_xlen h; h_priv := h_priv h; h_status := h_status h; h_ip := h_ip h; h_ie := e;
     h_mideleg := h_mideleg h; h_medeleg := h_medeleg h; h_sideleg := h_sideleg h;
     h_m := h_m h; h_s := h_s h; h_pc := h_pc h; h_branch := h_branch h;
     h_avail := h_avail h; h_code := h_code h; h_taken := h_taken h; h_returns := h_returns h |}.
Lemma put_status_frame h sc : exists a b, put_status h sc = set_offer (status_put h (fst sc)) a b.
Proof. exact (check_if_frame (snd sc) (status_put h (fst sc))). Qed.
Lemma put_ie_frame h ec : exists a b, put_ie h ec = set_offer (ie_put h (fst ec)) a b.
Proof. exact (check_if_frame (snd ec) (ie_put h (fst ec))). Qed.
Lemma put_status_word h sc : h_status (put_status h sc) = fst sc.
Proof. destruct (put_status_frame h sc) as (a & b & ->). reflexivity. Qed.
Lemma put_ie_status h ec : h_status (put_ie h ec) = h_status h.
Proof. destruct (put_ie_frame h ec) as (a & b & ->). reflexivity. Qed.
Lemma csr_cases c : c = Mstatus \/ c = Mie \/ (c <> Mstatus /\ c <> Mie).
Proof. destruct c; try (left; reflexivity); try (right; left; reflexivity); right; right; split; discriminate. Qed.
Lemma csr_dec (c d : csr) : {c = d} + {c <> d}.
Proof. decide equality. Qed.
Lemma land_mask_range w a m : 0 <= w -> 0 <= m < 2 ^ w -> 0 <= Z.land a m < 2 ^ w.
Proof. intros W M. rewrite Z.land_comm. apply (inw_land_l w); [lia | exact M]. Qed.
Lemma read_abs t c : c <> Mstatus -> read_csr t c = csr_value (abs t) c.
Proof. intros N. destruct c; try reflexivity. destruct (N eq_refl). Qed.
Lemma read_ok xlen t c : top_ok xlen t -> csr_reads xlen (abs t) c (read_csr t c).
Proof.
  intros (W & X & MO & _). destruct c; try reflexivity. cbn [csr_reads read_csr]. rewrite <- X. split; [apply read_mstatus_range; exact W |].
  intros f. apply read_mstatus_field.
Qed.
Lemma read_range xlen t c : top_ok xlen t -> 0 <= read_csr t c < 2 ^ xlen.
Proof.
  intros OK. pose proof (read_ok xlen t c OK) as RD. destruct OK as (W & X & MO & _). pose proof W as (XC & _ & _ & _ & _ & _ & _ & _ & Wm & Ws & _). rewrite X in Wm, Ws, XC.
  pose proof (mo_scratch _ _ MO) as [A B].
  destruct Wm as (? & ? & ? & ?), Ws as (? & ? & ? & ?). unfold inw in *.
  assert (MK : 0 <= 0xbbb < 2 ^ xlen /\ 0 <= 0xb3ff < 2 ^ xlen) by (destruct XC; subst xlen; rewrite H7; vm_compute; repeat split; discriminate).
  destruct c; cbn [read_csr]; try assumption; try (apply land_mask_range; [lia | apply MK]). apply RD.
Qed.
Definition op_of (k : csr_kind) : Z -> csr_op := match k with KWrite => CsrWrite | KSet => CsrSetBits | KClear => CsrClearBits end.
Lemma land_lnot_range w x y : 0 <= w -> 0 <= x < 2 ^ w -> 0 <= Z.land x y < 2 ^ w.
Proof.
  intros Hw [A B]. destruct (Z.eq_dec x 0) as [-> | N]; [rewrite Z.land_0_l; lia |]. split; [apply Z.land_nonneg; left; exact A |].
  destruct (Z.eq_dec (Z.land x y) 0) as [-> | N']; [lia |]. assert (0 <= Z.land x y) by (apply Z.land_nonneg; left; exact A).
  apply Z.log2_lt_pow2; [lia |]. destruct (Z.lt_ge_cases (Z.log2 (Z.land x y)) w) as [? | G]; [assumption | exfalso].
  pose proof (Z.bit_log2 (Z.land x y) ltac:(lia)) as T. rewrite Z.land_spec in T. apply andb_true_iff in T.
  rewrite Z.bits_above_log2 in T by (try (assert (Z.log2 x < w) by (apply Z.log2_lt_pow2; lia)); lia). destruct T as [T _]. discriminate T.
Qed.
Lemma plain_after w k x old : 0 < w -> inw w x -> inw w old -> plain_word w (Z.ones w) (op_of k x) old = csr_after k old x.
Proof.
  intros Hw V O. destruct k; cbn [op_of csr_after].
  - apply plain_all; assumption.
  - change (plain_word w (Z.ones w) (CsrSetBits x) old) with (plain_word w (Z.ones w) (CsrWrite (Z.lor old x)) old).
    apply plain_all; [exact Hw | | exact O]. apply inw_lor; [lia | assumption | assumption].
  - change (plain_word w (Z.ones w) (CsrClearBits x) old) with (plain_word w (Z.ones w) (CsrWrite (Z.land old (wnot w x))) old).
    rewrite plain_all; [| exact Hw | apply inw_land_l; [lia | exact O] | exact O].
    apply (inw_eq_bits w); [lia | apply inw_land_l; [lia | exact O] | apply land_lnot_range; [lia | exact O] |].
    intros i Hi. rewrite !Z.land_spec, wnot_testbit, Z.lnot_spec by lia. destruct (Z.ltb_spec i w); [rewrite ?andb_true_r; reflexivity | lia].
Qed.

(** Masked registers. *)
Lemma masked_after w m k x old : 0 < w -> 0 <= m < 2 ^ w -> 0 <= x < 2 ^ w ->
  Z.land (plain_word w m (op_of k x) old) m = Z.land (csr_after k (Z.land old m) x) m.
Proof.
  intros Hw M X. apply Z.bits_inj'. intros i Hi. rewrite !Z.land_spec.
  destruct (Z.lt_ge_cases i w) as [L | G].
  2:{ rewrite (inw_testbit_high w m i) by (exact M || lia). rewrite !andb_false_r. reflexivity. }
  destruct (Z.testbit m i) eqn:B; [| rewrite !andb_false_r; reflexivity]. rewrite !andb_true_r.
  destruct k; unfold plain_word; cbn [op_of csr_after]; cbv zeta; bnorm; rewrite ?B; replace (i <? w) with true by (symmetry; apply Z.ltb_lt; exact L);
    cbn [negb andb]; rewrite ?andb_true_r, ?andb_false_r, ?orb_false_r; reflexivity.
Qed.
Lemma mie_read w e : w = 32 \/ w = 64 -> mie_as_uint w e = Z.land e 0xbbb.
Proof.
  intros Hw. unfold mie_as_uint, mie_rmask. apply Z.bits_inj'. intros i Hi. rewrite !Z.land_spec. destruct (Z.lt_ge_cases i 32) as [L | G].
  - unfold wrap. rewrite Z.mod_pow2_bits_low by (destruct Hw; lia). reflexivity.
  - rewrite (inw_testbit_high 32 0xbbb i) by (first [lia | split; [discriminate | reflexivity]]). rewrite !andb_false_r. reflexivity.
Qed.
Lemma mie_after w k x e : w = 32 \/ w = 64 -> 0 <= x < 2 ^ w ->
  mie_as_uint w (fst (mie_word w (op_of k x) e)) = Z.land (csr_after k (mie_as_uint w e) x) 0xbbb.
Proof.
  intros Hw X. rewrite !mie_read by exact Hw. apply Z.bits_inj'. intros i Hi. rewrite !Z.land_spec. destruct (Z.lt_ge_cases i 32) as [L | G].
  2:{ rewrite (inw_testbit_high 32 0xbbb i) by (first [lia | split; [discriminate | reflexivity]]). rewrite !andb_false_r. reflexivity. }
  destruct (Z.testbit 0xbbb i) eqn:B; [| rewrite !andb_false_r; reflexivity]. rewrite !andb_true_r.
  destruct k; unfold mie_word, mie_write, mie_set, mie_wmask; cbn [op_of csr_after fst]; bnorm; rewrite ?B;
    replace (i <? 64) with true by (symmetry; apply Z.ltb_lt; lia); replace (i <? w) with true by (symmetry; apply Z.ltb_lt; lia);
    cbn [negb andb]; rewrite ?andb_true_r, ?andb_false_r, ?orb_false_r; reflexivity.
Qed.
Lemma field_lor f a b : field_of f (Z.lor a b) = Z.lor (field_of f a) (field_of f b).
Proof.
  apply (eq_field_bits f); [apply field_range | pose proof (off_bounds f); apply lor_small; [lia | apply field_range | apply field_range] |].
  intros k Hk. rewrite Z.lor_spec, !field_testbit by exact Hk. apply Z.lor_spec.
Qed.
Lemma field_clear f a b : field_of f (Z.land a (Z.lnot b)) = Z.ldiff (field_of f a) (field_of f b).
Proof.
  apply (eq_field_bits f); [apply field_range | pose proof (off_bounds f); apply ldiff_small; [lia | apply field_range] |].
  intros k Hk. pose proof (off_bounds f). rewrite Z.ldiff_spec, !field_testbit by exact Hk. rewrite Z.land_spec, Z.lnot_spec by lia. reflexivity.
Qed.
Lemma mstatus_after h k x old : hart_wf h -> 0 <= x < 2 ^ h_xlen h -> (forall f, field_of f old = sf h f) ->
  forall f, field_of f (ms_value (fst (ms_word (h_xlen h) (op_of k x) (h_status h)))) = field_of f (csr_after k old x).
Proof.
  intros W X O f. destruct W as (Wx & _ & Ws & _). rewrite (staged_fresh _ Ws).
  change (fst (ms_word (h_xlen h) (op_of k x) (fresh_status (ms_value (h_status h)))))
    with (fold_left (status_step true) [Word (h_xlen h) (op_of k x)] (fresh_status (ms_value (h_status h)))).
  rewrite ops_field.
  - destruct k; cbn [op_of csr_after fold_left status_spec_step sp_cur StatusProofs.spec_of].
    + reflexivity.
    + rewrite field_lor, O. reflexivity.
    + rewrite field_clear, O. reflexivity.
  - cbn [forallb status_op_ok]. rewrite andb_true_r.
    replace ((h_xlen h =? 32) || (h_xlen h =? 64)) with true by (destruct Wx as [-> | ->]; reflexivity).
    destruct k; cbn [op_of csr_arg andb]; apply andb_true_intro; (split; [apply Z.leb_le | apply Z.ltb_lt]); lia.
Qed.
Lemma legal_epc has_c c v : legalized has_c c v = v -> c = SEpc \/ c = MEpc -> v mod 2 = 0.
Proof.
  intros E Q. assert (F : v mod (if has_c then 2 else 4) = 0) by (destruct Q; subst c; cbn [legalized] in E; lia). clear E.
  destruct has_c; [exact F |]. apply Z.mod_divide in F; [| lia]. destruct F as [q ->]. replace (q * 4) with (q * 2 * 2) by ring. apply Z.mod_mul. lia.
Qed.
Lemma update_ok xlen has_c t c k x : top_ok xlen t -> 0 <= x < 2 ^ xlen ->
  let v := csr_after k (read_csr t c) x in
  (c = SEpc \/ c = MEpc -> legalized has_c c v = v) -> (c = Mstatus -> field_of F_MPP v <> 2) ->
  let t2 := update_csr t c (op_of k x) in
  mid_ok xlen t2 /\ tu t2 = tu t /\ csr_written has_c (abs t) (abs t2) c v /\ h_priv (tp t2) = h_priv (tp t).
Proof.
  intros OK XR v EV MV t2. pose proof OK as (W & X & MO & OF).
  assert (XC : xlen = 32 \/ xlen = 64) by (rewrite <- X; apply W).
  assert (X0 : 0 < xlen) by lia.
  assert (PV : forall old, inw xlen old -> plain_word xlen (Z.ones xlen) (op_of k x) old = csr_after k old x).
  { intros old HO. apply plain_after; [exact X0 | exact XR | exact HO]. }
  assert (W2 : hart_wf (tp t2)).
  { assert (CW : forall k', hart_wf (hart_csr_step (tp t) k' (op_of k x))).
    { intros k'. apply csr_step_wf; [exact W |]. cbn [hart_op_ok]. rewrite X. destruct k; cbn [op_of csr_arg]; apply andb_true_intro; (split; [apply Z.leb_le | apply Z.ltb_lt]); lia. }
    unfold t2. destruct c; first [exact W | apply CW]. }
  assert (LK : c <> Mstatus -> c <> Mie -> h_priv (tp t2) = h_priv (tp t) /\ h_xlen (tp t2) = h_xlen (tp t) /\ h_status (tp t2) = h_status (tp t) /\
    h_ie (tp t2) = h_ie (tp t) /\ h_avail (tp t2) = h_avail (tp t)).
  { intros N1 N2. unfold t2. destruct c; try (repeat split); congruence. }
  assert (FR : tu t2 = tu t /\ h_priv (tp t2) = h_priv (tp t) /\ h_xlen (tp t2) = h_xlen (tp t) /\ off_ok (tp t2)).
  { split; [unfold t2; destruct c; reflexivity |].
    destruct (csr_cases c) as [E | [E | [N1 N2]]].
    - subst c. unfold t2. cbn [update_csr tp hart_csr_step]. set (sc := ms_word (h_xlen (tp t)) (op_of k x) (h_status (tp t))).
      destruct (put_status_frame (tp t) sc) as (a & b & E). split; [rewrite E; reflexivity |]. split; [rewrite E; reflexivity |].
      unfold put_status. apply off_check; [exact (mo_priv _ _ MO) | apply idle_off; exact OF].
    - subst c. unfold t2. cbn [update_csr tp hart_csr_step]. set (ec := mie_word (h_xlen (tp t)) (op_of k x) (h_ie (tp t))).
      destruct (put_ie_frame (tp t) ec) as (a & b & E). split; [rewrite E; reflexivity |]. split; [rewrite E; reflexivity |].
      unfold put_ie. apply off_check; [exact (mo_priv _ _ MO) | apply idle_off; exact OF].
    - destruct (LK N1 N2) as (A & B & _ & _ & C). split; [exact A |]. split; [exact B |]. apply idle_off. rewrite C. exact OF. }
  destruct FR as (F1 & F2 & F3 & F4).
  assert (SFS : forall f, sf (tp t2) f = match c with Mstatus => field_of f v | _ => sf (tp t) f end).
  { intros f. destruct (csr_cases c) as [E | [E | [N1 N2]]].
    - subst c. unfold sf, t2. cbn [update_csr tp hart_csr_step]. rewrite put_status_word. apply mstatus_after; [exact W | rewrite X; exact XR |].
      intros g. apply read_mstatus_field.
    - subst c. unfold sf, t2. cbn [update_csr tp hart_csr_step]. rewrite put_ie_status. reflexivity.
    - destruct (LK N1 N2) as (_ & _ & S & _). unfold sf. rewrite S. destruct c; try reflexivity. destruct (N1 eq_refl). }
  assert (OTH : forall d, d <> c -> csr_value (abs t2) d = csr_value (abs t) d).
  { intros d N. destruct (csr_cases c) as [E | [E | [N1 N2]]].
    - subst c. unfold t2. cbn [update_csr hart_csr_step]. destruct (put_status_frame (tp t) (ms_word (h_xlen (tp t)) (op_of k x) (h_status (tp t)))) as (a & b & E). rewrite E.
      destruct d; try reflexivity.
    - subst c. unfold t2. cbn [update_csr hart_csr_step]. destruct (put_ie_frame (tp t) (mie_word (h_xlen (tp t)) (op_of k x) (h_ie (tp t)))) as (a & b & E). rewrite E.
      destruct d; try reflexivity. destruct (N eq_refl).
    - unfold t2. destruct c; destruct d; try reflexivity; first [destruct (N eq_refl) | destruct (N1 eq_refl) | destruct (N2 eq_refl)]. }
  pose proof W as (_ & _ & _ & _ & _ & _ & _ & _ & Wm & Ws & _). rewrite X in Wm, Ws. destruct Wm as (? & ? & ? & ?), Ws as (? & ? & ? & ?).
  pose proof (mo_scratch _ _ MO) as [SA SB].
  assert (MK : 0 <= 0xbbb < 2 ^ xlen /\ 0 <= 0xb3ff < 2 ^ xlen) by (destruct XC as [XC' | XC']; rewrite XC'; vm_compute; repeat split; discriminate).
  assert (NEW : c <> Mstatus -> csr_value (abs t2) c = legalized has_c c v).
  { intros N. unfold v, t2 in *. destruct c; try (destruct (N eq_refl));
      try (cbn [legalized update_csr hart_csr_step abs csr_value m_m m_s m_mscratch m_sscratch tp t_mscr t_sscr h_m h_s set_trapregs up_epc up_cause up_tvec up_tval t_cause t_tvec HartSpec.t_epc HartSpec.t_tval read_csr];
           rewrite X; apply PV; assumption).
    - rewrite EV by (left; reflexivity).
      cbn [update_csr hart_csr_step abs csr_value m_s tp h_s set_trapregs up_epc HartSpec.t_epc read_csr]. rewrite X. apply PV; assumption.
    - rewrite EV by (right; reflexivity).
      cbn [update_csr hart_csr_step abs csr_value m_m tp h_m set_trapregs up_epc HartSpec.t_epc read_csr]. rewrite X. apply PV; assumption.
    - cbn [legalized update_csr hart_csr_step read_csr]. destruct (put_ie_frame (tp t) (mie_word (h_xlen (tp t)) (op_of k x) (h_ie (tp t)))) as (a & b & E). rewrite E.
      cbn [abs csr_value m_mie tp set_offer ie_put h_xlen h_ie]. rewrite X. apply mie_after; assumption.
    - cbn [legalized update_csr hart_csr_step read_csr abs csr_value m_mideleg tp]. unfold mideleg_r. cbn [set_deleg h_mideleg]. rewrite X. apply masked_after; [exact X0 | apply MK | exact XR].
    - cbn [legalized update_csr hart_csr_step read_csr abs csr_value m_medeleg tp]. unfold medeleg_r. cbn [set_deleg h_medeleg]. rewrite X. apply masked_after; [exact X0 | apply MK | exact XR]. }
  assert (RGE : forall d, d = MScratch \/ d = SScratch \/ d = MEpc \/ d = SEpc -> 0 <= csr_value (abs t) d < 2 ^ xlen).
  { intros d [-> | [-> | [-> | ->]]]; assumption. }
  assert (VR : c = MScratch \/ c = SScratch \/ c = MEpc \/ c = SEpc -> 0 <= v < 2 ^ xlen).
  { intros HC. unfold v. rewrite <- PV by (rewrite read_abs; [apply RGE; exact HC | destruct HC as [-> | [-> | [-> | ->]]]; discriminate]).
    apply plain_word_wf; [exact X0 | apply ones_inw; lia |]. rewrite read_abs; [apply RGE; exact HC | destruct HC as [-> | [-> | [-> | ->]]]; discriminate]. }
  assert (SCR : forall d, d = MScratch \/ d = SScratch -> 0 <= csr_value (abs t2) d < 2 ^ xlen).
  { intros d HD. destruct (csr_dec d c) as [E | N].
    - subst d. rewrite NEW by (destruct HD as [-> | ->]; discriminate). replace (legalized has_c c v) with v by (destruct HD as [-> | ->]; reflexivity).
      apply VR. tauto.
    - rewrite OTH by exact N. apply RGE. tauto. }
  assert (EPC : forall d, d = SEpc \/ d = MEpc -> csr_value (abs t) d mod 2 = 0 -> csr_value (abs t2) d mod 2 = 0).
  { intros d HD EE. destruct (csr_dec d c) as [E | N].
    - subst d. rewrite NEW by (destruct HD as [-> | ->]; discriminate). rewrite (EV HD). exact (legal_epc has_c c v (EV HD) HD).
    - rewrite OTH by exact N. exact EE. }
  split; [| split; [exact F1 |]; split; [| exact F2]].
  - split; [exact W2 |]. split; [rewrite F3; exact X |]. split; [| exact F4].
    destruct MO as [MU MF MP MM MS ME]. constructor.
    + cbn [abs m_user] in MU |- *. unfold user. rewrite F1. destruct MU. constructor; assumption.
    + apply user_fs.
    + cbn [abs m_priv]. rewrite F2. exact MP.
    + cbn [abs m_status] in MM |- *. rewrite SFS. destruct c; try exact MM. apply MV. reflexivity.
    + split; [apply (SCR MScratch); left; reflexivity | apply (SCR SScratch); right; reflexivity].
    + split; [apply (EPC MEpc); [right; reflexivity | apply ME] | apply (EPC SEpc); [left; reflexivity | apply ME]].
  - split; [exact OTH |]. split; [exact NEW |]. intros f. cbn [abs m_status]. pose proof (SFS f) as Q. destruct c; try exact Q.
    unfold field_takes. destruct f; try exact Q. specialize (MV eq_refl). apply Z.eqb_neq in MV. rewrite MV. exact Q.
Qed.

(** ** One instruction *)
Section Inst.
Variables (I : implementation) (misa max : Z).
Hypothesis HI : In I simulators.
Let S := im_sim I.
Let xlen := s_xlen S.
Let has_c := negb (Z.land misa 4 =? 0).
Let step := steps_to xlen has_c max (ds_manual (im_32 I)) (ds_manual (im_16 I)).
Let act := acts xlen has_c max (ds_manual (im_32 I)) (ds_manual (im_16 I)).
Let exceptional := excepts xlen has_c max (ds_manual (im_32 I)) (ds_manual (im_16 I)).
Let covers := m_covered xlen has_c max (im_32 I) (im_16 I) (im_broken I).

Lemma xl_cases : xlen = 32 \/ xlen = 64.
Proof. exact (proj1 (sim_cases I HI)). Qed.
(** What an instruction leaves. *)
Definition good (t t1 : top) : Prop :=
  mid_ok xlen t1 /\ (h_branch (tp t1) = true -> h_pc (tp t1) = hpc (tu t1)).

Lemma deliver_ok t u q : top_ok xlen t -> covers (abs t) -> exceptional (abs t) q -> unchanged (user t) u -> req_ok q -> q_int q = false ->
  q_epc q = hpc (tu t) -> exists t1, deliver t u q = Some t1 /\ enters xlen (abs t) q (abs t1) /\ good t t1.
Proof.
  intros OK (_ & _ & TV) EX (KX & [KF _] & KM & _) Q NI EP. pose proof OK as (W & X & MO & OF).
  destruct (enter_ok xlen t (begin_inst (tp t) (hpc u)) q (top_mid _ _ OK) (like_begin _ _) (begin_wf _ _ W) Q) as (p' & E & BR & W' & O' & X' & N).
  { intros C. congruence. }
  { right. apply TV. exact EX. }
  { rewrite EP. exact (ok_even _ _ (mo_user _ _ MO)). }
  exists (moved t u p'). unfold deliver. rewrite E. split; [reflexivity |].
  assert (HP : hpc (tu (moved t u p')) = h_pc p') by (cbn [moved tu at_pc hpc]; unfold next_of; rewrite BR; reflexivity).
  destruct (N (moved t u p')) as [EN MO']; try reflexivity; [exact KX | exact KF | exact KM | exact HP | apply like_refl |].
  split; [exact EN |]. split; [| intros _; symmetry; exact HP].
  split; [exact W' |]. split; [exact X' |]. split; [exact MO' | exact (O' OF)].
Qed.

Lemma done_ok t u : top_ok xlen t -> step (user t) (Done u) -> hart_ok xlen u -> hfs u = hfs (user t) ->
  exists t1, finish t (Done u) = Some t1 /\ act (abs t) (abs t1) /\ good t t1.
Proof.
  intros OK ST HO FS. pose proof OK as (W & X & MO & OF). eexists. split; [reflexivity |].
  set (t1 := moved t u (begin_inst (tp t) (hpc (tu t)))).
  assert (U : user t1 = u) by (destruct u; cbn in FS |- *; rewrite FS; reflexivity).
  split.
  - apply act_user; try reflexivity.
    + cbn [abs m_user]. rewrite U. exact ST.
    + repeat split.
    + cbn [abs m_status m_user]. rewrite (user_fs t1). reflexivity.
  - split; [| discriminate]. split; [exact W |]. split; [exact X |]. split; [| exact (idle_off _ OF)].
    destruct MO as [MU MF MP MM MS ME]. constructor; try assumption.
    cbn [abs m_user]. rewrite U. exact HO.
Qed.
Lemma raised_ok t r u : top_ok xlen t -> covers (abs t) -> step (user t) (Raise r u) ->
  exists t1, finish t (Raise r u) = Some t1 /\ act (abs t) (abs t1) /\ good t t1.
Proof.
  intros OK CV ST. pose proof OK as (W & X & MO & OF).
  destruct (raise_ok xlen has_c max _ _ _ r u xl_cases (mo_user _ _ MO) ST) as (Q & EP & UN).
  assert (EX : exceptional (abs t) (exc r)) by (left; exists r, u; split; [exact ST | reflexivity]).
  destruct (deliver_ok t u (exc r) OK CV EX UN Q eq_refl EP) as (t1 & E & EN & G).
  exists t1. split; [exact E |]. split; [| exact G]. eapply act_trap; eassumption.
Qed.

Lemma advance_ok t u size : mid_ok xlen t -> hart_ok xlen u -> size = 2 \/ size = 4 -> hpc u + size < 2 ^ xlen ->
  mid_ok xlen (advance t u size) /\ hpc (user (advance t u size)) = (hpc u + size) mod 2 ^ xlen.
Proof.
  intros (W & X & MO & OF) HO SZ LT. pose proof (pow_le xlen xl_cases) as LE. pose proof (ok_pc _ _ HO) as [P0 _].
  assert (E : wrap 64 (hpc u + size) = (hpc u + size) mod 2 ^ xlen).
  { unfold wrap. rewrite !Z.mod_small; [reflexivity | |]; lia. }
  split; [| exact E]. split; [exact W |]. split; [exact X |]. split; [| exact OF].
  destruct MO as [MU MF MP MM MS ME]. constructor; try assumption.
  - cbn [abs m_user]. apply (keeps_ok xlen u); [exact HO | intros n; reflexivity | intros a; reflexivity | reflexivity | |]; cbn [user advance tu at_pc hpc]; rewrite E.
    + apply Z.mod_pos_bound. apply pow2_pos. pose proof xl_cases. lia.
    + apply even_wrap; [exact xl_cases |]. pose proof (ok_even _ _ HO) as EV. rewrite Z.add_mod, EV by lia. destruct SZ as [-> | ->]; reflexivity.
Qed.

(** The return instructions. *)
Lemma ret_ok t p' (g : (sfield -> Z) -> sfield -> Z) epc : top_ok xlen t ->
  let p := begin_inst (tp t) (hpc (user t)) in
  hart_wf p' -> off_ok p' -> h_pc p' = epc -> 0 <= epc < 2 ^ xlen -> epc mod 2 = 0 -> legal_priv (h_priv p') -> h_branch p' = true ->
  (forall f, sf p' f = g (sf p) f) -> g (sf p) F_FS = sf p F_FS -> g (sf p) F_MPP <> 2 ->
  same_rest p p' -> h_m p' = h_m p -> h_s p' = h_s p ->
  let t1 := moved t (user t) p' in
  same_regs (abs t) (abs t1) /\ same_config (abs t) (abs t1) /\ m_m (abs t1) = m_m (abs t) /\ m_s (abs t1) = m_s (abs t) /\
  hpc (m_user (abs t1)) = epc /\ good t t1.
Proof.
  intros (W & X & MO & OF) p W' O' PC ER EE LP BR SF GF GM SR HM HS t1.
  destruct SR as (SX & _ & SE & SM & SD & _).
  assert (FS : hfs (user t1) = hfs (user t)) by (rewrite !user_fs; cbn [t1 moved tp]; rewrite SF; exact GF).
  assert (HP : hpc (user t1) = epc) by (cbn [t1 user moved tu at_pc hpc tp]; unfold next_of; rewrite BR; exact PC).
  split; [split; [intros n; reflexivity |]; split; [split; [reflexivity | exact FS] | intros a; reflexivity] |].
  split; [split; [reflexivity |]; split; [reflexivity |]; cbn [abs m_mie m_mideleg m_medeleg t1 moved tp]; unfold mideleg_r, medeleg_r; rewrite SM, SD, SE, SX; repeat split |].
  split; [exact HM |]. split; [exact HS |]. split; [exact HP |].
  split.
  - split; [exact W' |]. split; [cbn [t1 moved tp]; rewrite SX; exact X |]. split; [| exact O'].
    destruct MO as [MU MF MP MM MS ME]. constructor; try assumption.
    + cbn [abs m_user]. apply (keeps_ok xlen (user t)); [exact MU | intros n; reflexivity | intros a; reflexivity | reflexivity | |]; rewrite HP; assumption.
    + apply user_fs.
    + cbn [abs m_status t1 moved tp]. rewrite SF. exact GM.
    + cbn [abs m_m m_s t1 moved tp]. rewrite HM, HS. exact ME.
  - intros _. symmetry. cbn [t1 moved tu at_pc hpc tp]. unfold next_of. rewrite BR. reflexivity.
Qed.
Lemma epc_ok t : top_ok xlen t -> (0 <= HartSpec.t_epc (h_m (tp t)) < 2 ^ xlen /\ HartSpec.t_epc (h_m (tp t)) mod 2 = 0) /\
  (0 <= HartSpec.t_epc (h_s (tp t)) < 2 ^ xlen /\ HartSpec.t_epc (h_s (tp t)) mod 2 = 0).
Proof.
  intros (W & X & MO & _). destruct W as (_ & _ & _ & _ & _ & _ & _ & _ & Wm & Ws & _). rewrite X in Wm, Ws.
  destruct (mo_epc _ _ MO). split; (split; [first [apply Wm | apply Ws] | assumption]).
Qed.

(** The system instructions. *)
Lemma exn_ok t code : top_ok xlen t -> 0 <= code < 32 -> req_ok (exn code (hpc (tu t))).
Proof.
  intros (_ & _ & MO & _) C. pose proof (ok_pc _ _ (mo_user _ _ MO)) as P. cbn [abs m_user user hpc] in P. pose proof (pow_le xlen xl_cases).
  unfold req_ok, exn. cbn [q_code q_tval q_epc]. lia.
Qed.
Lemma raises_exn_ok t iw y code : top_ok xlen t -> covers (abs t) -> is_sys max (ds_manual (im_32 I)) (ds_manual (im_16 I)) (abs t) iw y ->
  0 <= code < 32 -> sys_raises y (word_of iw) (abs t) (exn code (hpc (tu t))) ->
  exists t1, deliver t (user t) (exn code (hpc (tu t))) = Some t1 /\ act (abs t) (abs t1) /\ good t t1.
Proof.
  intros OK CV SY C R.
  assert (EX : exceptional (abs t) (exn code (hpc (tu t)))) by (right; exists iw, y; split; assumption).
  destruct (deliver_ok t (user t) _ OK CV EX (unchanged_refl _) (exn_ok t code OK C) eq_refl eq_refl) as (t1 & E & EN & G).
  exists t1. split; [exact E |]. split; [| exact G]. eapply act_trap; eassumption.
Qed.
Lemma sret_illegal_ok t p : top_ok xlen t -> p = begin_inst (tp t) (hpc (tu t)) -> ~ sys_deviates xlen has_c YSret 0 (abs t) ->
  sret_illegal p = true <-> (m_priv (abs t) = U_mode \/ m_priv (abs t) = S_mode /\ m_status (abs t) F_TSR = 1).
Proof.
  intros (W & X & MO & _) -> ND. unfold sret_illegal. cbn [begin_inst h_xlen h_priv h_status]. rewrite ms_get_field. fold (sf (tp t) F_TSR).
  cbn [sys_deviates abs m_priv m_status] in ND |- *. rewrite X.
  pose proof (sf_bit (tp t) F_TSR eq_refl) as B. pose proof (mo_priv _ _ MO) as P. cbn [abs m_priv] in P. unfold U_mode, S_mode, M_mode in *.
  assert (TS : sf (tp t) F_TSR = 0 \/ sf (tp t) F_TSR = 1) by lia. clear B.
  destruct P as [P | [P | P]]; rewrite P in *; destruct TS as [T | T]; rewrite T in *; destruct xl_cases as [XX | XX]; rewrite XX in *; cbn in *;
    (split; [intros H; first [discriminate H | tauto | (exfalso; apply ND; tauto)] | intros H; first [reflexivity | lia]]).
Qed.

Section Csr.
Variables (t : top) (iw : Z).
Hypothesis OK : top_ok xlen t.
Hypothesis LG : long iw = true.
Lemma csr_src s : src_ok false s (Imm o_csr) = true -> exists n, encodes o_csr iw n /\ sgn 32 (wrap 32 (src_value (user t) iw s)) = n.
Proof.
  destruct s as [| | fm fld i32 | |]; cbn [src_ok]; intros H; try discriminate H. rewrite !andb_true_iff in H. destruct H as [[A F] M].
  pose proof (extract_encodes o_csr fm fld iw A) as E. exists (extract fm fld iw). split; [exact E |]. cbn [src_value].
  rewrite (imm32_value _ _ _ _ M E). pose proof (csr_range _ _ E) as R. rewrite wrap_id by (unfold inw; lia). apply sgn_id; lia.
Qed.
Lemma with_csr_ok ir i k v use : covers (abs t) -> is_sys max (ds_manual (im_32 I)) (ds_manual (im_16 I)) (abs t) iw (YCsr k v) ->
  (exists n c, encodes o_csr iw n /\ csr_name n = Some c) -> sys_opd S false ir i (Imm o_csr) = true ->
  (forall n c, encodes o_csr iw n -> csr_name n = Some c -> (forall q, ~ sys_raises (YCsr k v) iw (abs t) q) ->
     exists t1, use c = Some t1 /\ act (abs t) (abs t1) /\ good t t1) ->
  exists t1, with_csr S t iw (i_src ir) i use = Some t1 /\ act (abs t) (abs t1) /\ good t t1.
Proof.
  intros CV SY (n & c & EN & NM) OP USE. unfold sys_opd in OP. unfold with_csr.
  destruct (sys_src S (i_src ir) i) as [s |]; [| discriminate OP]. cbv zeta. destruct (csr_src s OP) as (n' & EN' & ->).
  rewrite (csr_unique _ _ _ EN' EN). pose proof (csr_range _ _ EN) as R. rewrite (csr_priv n R), csr_no_name, NM.
  destruct (Z.ltb_spec (h_priv (tp t)) (n / 256 mod 4)) as [LT | GE].
  - assert (RS : sys_raises (YCsr k v) iw (abs t) (exn 2 (hpc (tu t)))) by (exists n; split; [exact EN |]; split; [exact LT | reflexivity]).
    pose proof (raises_exn_ok t iw (YCsr k v) 2 OK CV SY ltac:(lia)) as RE. unfold word_of in RE. rewrite LG in RE. exact (RE RS).
  - apply (USE n c EN NM). intros q (m & EM & LT & _). rewrite (csr_unique _ _ _ EM EN) in LT. cbn [abs m_priv] in LT. lia.
Qed.
End Csr.

Lemma acts_csr t t1 u iw k v n c d x size :
  is_sys max (ds_manual (im_32 I)) (ds_manual (im_16 I)) (abs t) iw (YCsr k v) -> (forall q, ~ sys_raises (YCsr k v) (word_of iw) (abs t) q) ->
  encodes o_csr (word_of iw) n -> csr_name n = Some c -> encodes o_rd (word_of iw) d -> opd_value xlen (word_of iw) (user t) v x ->
  csr_reads xlen (abs t) c (read_csr t c) -> writes_x (user t) u d (read_csr t c) -> keeps_f (user t) u -> keeps_m (user t) u -> hpc u = hpc (tu t) ->
  hx (tu t1) = hx u -> hf (tu t1) = hf u -> hm (tu t1) = hm u -> hpc (tu t1) = (hpc u + size) mod 2 ^ xlen -> size = size_of iw ->
  h_priv (tp t1) = h_priv (tp t) ->
  match k with
  | KWrite => csr_written has_c (abs t) (abs t1) c x
  | _ => if bits (word_of iw) (19, 15) =? 0 then csr_kept (abs t) (abs t1) else csr_written has_c (abs t) (abs t1) c (csr_after k (read_csr t c) x) end ->
  act (abs t) (abs t1).
Proof.
  intros SY NR EN NM ED OV RD WX KF KM HP EX EF EM U SZ PR CW. apply (act_sys _ _ _ _ _ _ _ iw (YCsr k v)); [exact SY | exact NR |].
  exists n, c, d, x, (read_csr t c). cbn [abs m_user m_priv m_status].
  split; [exact EN |]. split; [exact NM |]. split; [exact ED |]. split; [exact OV |]. split; [exact RD |].
  split; [unfold writes_x in *; cbn [user hx]; rewrite EX; exact WX |]. split; [intros m; cbn [user hf]; rewrite EF; apply KF |].
  split; [apply user_fs |]. split; [intros a; cbn [user hm]; rewrite EM; apply KM |].
  split; [cbn [user hpc]; rewrite U, HP, SZ; reflexivity |]. split; [exact PR | exact CW].
Qed.

Lemma sys_exec_ok t iw y r ir : top_ok xlen t -> covers (abs t) -> is_sys max (ds_manual (im_32 I)) (ds_manual (im_16 I)) (abs t) iw y ->
  (forall k v, y = YCsr k v -> exists n c, encodes o_csr (word_of iw) n /\ csr_name n = Some c) ->
  ~ sys_deviates xlen has_c y (word_of iw) (abs t) -> hpc (tu t) + size_of iw < 2 ^ xlen ->
  applies r (word_of iw) = true -> sys_row_ok S (negb (long iw)) r ir y = true ->
  exists t1, sys_exec S t iw ir = Some t1 /\ act (abs t) (abs t1) /\ good t t1.
Proof.
  intros OK CV SY CK ND LT AP T. pose proof OK as (W & X & MO & OF). pose proof (mo_user _ _ MO) as HO. cbn [abs m_user] in HO.
  unfold sys_row_ok in T. apply andb_true_iff in T. destruct T as [SZ T]. apply Z.eqb_eq in SZ.
  assert (SZ' : i_size ir = size_of iw) by (rewrite SZ; unfold size_of; destruct (long iw); reflexivity).
  assert (SZ2 : i_size ir = 2 \/ i_size ir = 4) by (rewrite SZ; destruct (negb (long iw)); auto).
  assert (ADV : mid_ok xlen (advance t (user t) (i_size ir)) /\ hpc (user (advance t (user t) (i_size ir))) = (hpc (user t) + i_size ir) mod 2 ^ xlen).
  { apply advance_ok; try assumption; [apply top_mid; exact OK |]. rewrite SZ'. exact LT. }
  (* nothing known to go wrong *)
  assert (NDV : forall k v n c x, y = YCsr k v -> long iw = true -> (k = KWrite \/ bits iw (19, 15) <> 0) -> encodes o_csr iw n -> csr_name n = Some c ->
    opd_value xlen iw (user t) v x ->
    (c = SEpc \/ c = MEpc -> legalized has_c c (csr_after k (read_csr t c) x) = csr_after k (read_csr t c) x) /\
    (c = Mstatus -> field_of F_MPP (csr_after k (read_csr t c) x) <> 2)).
  { intros k v n c x -> LG KW EN NM OV. unfold word_of in ND. rewrite LG in ND. cbn [sys_deviates] in ND. split.
    - intros HC. destruct (Z.eq_dec (legalized has_c c (csr_after k (read_csr t c) x)) (csr_after k (read_csr t c) x)) as [Q | Q]; [exact Q | exfalso].
      apply ND. split; [exact KW |]. exists n, c, x, (read_csr t c). split; [exact EN |]. split; [exact NM |]. split; [exact OV |].
      split; [apply read_ok; exact OK | left; split; assumption].
    - intros HC Q. apply ND. split; [exact KW |]. exists n, c, x, (read_csr t c). split; [exact EN |]. split; [exact NM |]. split; [exact OV |].
      split; [apply read_ok; exact OK | right; split; assumption]. }
  (* CSR instructions *)
  assert (CSR : forall k v, y = YCsr k v -> negb (negb (long iw)) = true -> forall i use, sys_opd S (negb (long iw)) ir i (Imm o_csr) = true ->
    (forall n c, encodes o_csr iw n -> csr_name n = Some c -> (forall q, ~ sys_raises (YCsr k v) iw (abs t) q) ->
       exists t1, use c = Some t1 /\ act (abs t) (abs t1) /\ good t t1) ->
    exists t1, with_csr S t iw (i_src ir) i use = Some t1 /\ act (abs t) (abs t1) /\ good t t1).
  { intros k v -> SH i use OP USE. rewrite negb_involutive in SH. rewrite SH in OP. unfold word_of in *. rewrite SH in *.
    eapply with_csr_ok; try eassumption. apply (CK k v eq_refl). }
  assert (RMW : forall k v, y = YCsr k v -> negb (negb (long iw)) && sys_opd S (negb (long iw)) ir 1 (Imm o_csr) && sys_opd S (negb (long iw)) ir 0 v && is_dst S (negb (long iw)) r ir 0 (Rd o_rd) = true ->
    (k <> KWrite -> bits iw (19, 15) <> 0) ->
    exists t1, csr_rmw S t iw ir (op_of k) = Some t1 /\ act (abs t) (abs t1) /\ good t t1).
  { intros k v E TT NZ. rewrite !andb_true_iff in TT. destruct TT as [[[SH OC] OV] OD]. unfold csr_rmw.
    apply (CSR k v E SH _ _ OC). intros n c EN NM NR. subst y. rewrite negb_involutive in SH. unfold word_of in *. rewrite SH in *. cbn [negb] in *.
    unfold sys_opd in OV. destruct (sys_src S (i_src ir) 0) as [s |]; [| discriminate OV].
    unfold is_dst in OD. destruct (get_dst S (i_dst ir) 0) as [d |]; [| discriminate OD].
    assert (XV : opd_value xlen iw (user t) v (wrap xlen (src_value (user t) iw s))).
    { exact (src_value_ok S false iw (user t) r xl_cases HO AP s v OV). }
    set (x := wrap xlen (src_value (user t) iw s)) in *.
    assert (XR : 0 <= x < 2 ^ xlen) by (apply wrap_range; pose proof xl_cases; lia).
    destruct (write_some false iw (user t) r d (Rd o_rd) (read_csr t c) OD) as (u & WX). rewrite WX.
    destruct (write_ok S false iw (user t) r xl_cases HO AP d (Rd o_rd) (read_csr t c) u OD WX (read_range xlen t c OK)) as (m & NMm & WR & KF & KM & HP & HU).
    assert (KW : k = KWrite \/ bits iw (19, 15) <> 0) by (destruct k; [left; reflexivity | right | right]; apply NZ; discriminate).
    destruct (NDV k v n c x eq_refl eq_refl KW EN NM XV) as [DV1 DV2].
    destruct (update_ok xlen has_c t c k x OK XR DV1 DV2) as (OK2 & TU & CW & PR).
    set (t2 := update_csr t c (op_of k x)) in *.
    destruct (advance_ok t2 u (i_size ir) OK2 HU SZ2) as [OK3 U3]; [rewrite HP, SZ'; exact LT |].
    eexists. split; [reflexivity |]. split.
    - apply (acts_csr t _ u iw k v n c m x (i_size ir)); try assumption; unfold word_of; rewrite ?SH; try assumption; try reflexivity.
      + apply read_ok. exact OK.
      + destruct k; [exact CW | |]; (destruct (Z.eqb_spec (bits iw (19, 15)) 0) as [Q | Q]; [exfalso; apply NZ; [discriminate | exact Q] | exact CW]).
    - split; [exact OK3 | discriminate]. }
  assert (NZR : forall b, nonzero_row r o_rs1 = true -> negb (negb (long iw)) && b = true -> bits iw (19, 15) <> 0).
  { intros b N SH. apply andb_true_iff in SH. destruct SH as [SH _]. rewrite negb_involutive in SH. unfold word_of in AP. rewrite SH in AP.
    destruct (nonzero_row_ok r o_rs1 iw N AP) as (m & EM & NM). rewrite <- (rs1_bits _ _ EM). exact NM. }
  unfold sys_exec. destruct (assoc sysfns (i_sem ir)) as [fn |]; [| discriminate T].
  destruct fn.
  - (* ecall *)
    destruct y; try discriminate T. cbn [begin_inst h_priv].
    assert (RE : forall p, m_priv (abs t) = p -> 0 <= 8 + p < 32 -> exists t1, deliver t (user t) (exn (8 + p) (hpc (tu t))) = Some t1 /\ act (abs t) (abs t1) /\ good t t1).
    { intros p Hp R. apply (raises_exn_ok t iw YEcall); try assumption. cbn [sys_raises]. rewrite Hp. reflexivity. }
    pose proof (mo_priv _ _ MO) as P. unfold U_mode, S_mode, M_mode in P. cbn [abs m_priv] in P, RE.
    destruct P as [P | [P | P]]; rewrite P; cbn [Z.eqb Pos.eqb]; apply (RE _ P); lia.
  - (* ebreak *)
    destruct y; try discriminate T. apply (raises_exn_ok t iw YEbreak); try assumption; [lia | reflexivity].
  - (* mret *)
    destruct y; try discriminate T. destruct (Z.eq_dec (h_priv (tp t)) M_mode) as [P | P].
    + set (p := begin_inst (tp t) (hpc (user t))).
      destruct (mret_effect_main p (hpc (user t)) W P) as (p' & E & PR & PC & BR & SF & SR & HM & HS & _). rewrite E.
      eexists. split; [reflexivity |]. destruct (epc_ok t OK) as [[EA EB] _].
      destruct (ret_ok t p' status_after_mret (HartSpec.t_epc (h_m (tp t))) OK) as (A1 & A2 & A3 & A4 & A5 & A6); try assumption; try reflexivity.
      * exact (mret_wf p _ p' W E).
      * exact (mret_off p _ p' (mo_mpp _ _ MO) OF E).
      * rewrite PR. apply mpp_legal. exact (mo_mpp _ _ MO).
      * discriminate.
      * split; [| exact A6]. apply (act_sys _ _ _ _ _ _ _ iw YMret); [exact SY | intros q [Q _]; exact (Q P) |].
        cbn [sys_does]. split; [exact A1 |]. split; [exact A2 |]. split; [exact A3 |]. split; [exact A4 |]. split; [exact A5 |]. split; [exact PR | exact SF].
    + rewrite mret_needs_m by exact P.
      apply (raises_exn_ok t iw YMret); try assumption; [lia | split; [exact P | reflexivity]].
  - (* sret *)
    destruct y; try discriminate T. set (p := begin_inst (tp t) (hpc (user t))).
    pose proof (sret_illegal_ok t p OK eq_refl ND) as SI. destruct (sret_illegal p) eqn:IL.
    + unfold sret. rewrite IL. apply (raises_exn_ok t iw YSret); try assumption; [lia |]. split; [apply SI; reflexivity | reflexivity].
    + destruct (sret_effect_main p (hpc (user t)) W IL) as (p' & E & PR & PC & BR & SF & SR & HM & HS & _). rewrite E.
      eexists. split; [reflexivity |]. destruct (epc_ok t OK) as [_ [EA EB]].
      destruct (ret_ok t p' status_after_sret (HartSpec.t_epc (h_s (tp t))) OK) as (A1 & A2 & A3 & A4 & A5 & A6); try assumption; try reflexivity.
      * exact (sret_wf p _ p' W E).
      * exact (sret_off p _ p' OF E).
      * rewrite PR. apply spp_legal.
      * exact (mo_mpp _ _ MO).
      * split; [| exact A6]. apply (act_sys _ _ _ _ _ _ _ iw YSret); [exact SY | |].
        -- intros q [Q _]. apply SI in Q. discriminate Q.
        -- cbn [sys_does]. split; [exact A1 |]. split; [exact A2 |]. split; [exact A3 |]. split; [exact A4 |]. split; [exact A5 |]. split; [exact PR | exact SF].
  - (* wfi *)
    destruct y; try discriminate T. eexists. split; [reflexivity |]. destruct ADV as [A U].
    split; [| split; [exact A | discriminate]].
    apply (act_sys _ _ _ _ _ _ _ iw YWfi); [exact SY | intros q [] |]. cbn [sys_does]. cbn [abs m_user] in *. rewrite U.
    split; [split; [intros n; reflexivity |]; split; [split; reflexivity | intros a; reflexivity] |].
    split; [repeat split |]. split; [reflexivity |]. split; [reflexivity |]. split; [rewrite SZ'; reflexivity |]. split; reflexivity.
  - destruct y as [| | | | | k v]; try discriminate T. destruct k; try discriminate T. apply (RMW KWrite v eq_refl T). intros C. destruct (C eq_refl).
  - destruct y as [| | | | | k v]; try discriminate T. destruct k; try discriminate T. apply andb_true_iff in T. destruct T as [T N].
    apply (RMW KSet v eq_refl T). intros _. rewrite <- !andb_assoc in T. exact (NZR _ N T).
  - destruct y as [| | | | | k v]; try discriminate T. destruct k; try discriminate T. apply andb_true_iff in T. destruct T as [T N].
    apply (RMW KClear v eq_refl T). intros _. rewrite <- !andb_assoc in T. exact (NZR _ N T).
  - (* csrrw, rd = x0 *)
    destruct y as [| | | | | k v]; try discriminate T. destruct k; try discriminate T. rewrite !andb_true_iff in T. destruct T as [[[SH OC] OV] ZR].
    apply (CSR KWrite v eq_refl SH _ _ OC). intros n c EN NM NR. rewrite negb_involutive in SH. unfold word_of in *. rewrite SH in *. cbn [negb] in *.
    unfold sys_opd in OV. destruct (sys_src S (i_src ir) 0) as [s |]; [| discriminate OV].
    assert (XV : opd_value xlen iw (user t) v (wrap xlen (src_value (user t) iw s))) by exact (src_value_ok S false iw (user t) r xl_cases HO AP s v OV).
    set (x := wrap xlen (src_value (user t) iw s)) in *.
    assert (XR : 0 <= x < 2 ^ xlen) by (apply wrap_range; pose proof xl_cases; lia).
    destruct (NDV KWrite v n c x eq_refl eq_refl (or_introl eq_refl) EN NM XV) as [DV1 DV2].
    destruct (update_ok xlen has_c t c KWrite x OK XR DV1 DV2) as (OK2 & TU & CW & PR).
    change (CsrWrite (wrap (s_xlen S) (src_value (user t) iw s))) with (op_of KWrite x).
    set (t2 := update_csr t c (op_of KWrite x)) in *.
    destruct (advance_ok t2 (user t) (i_size ir) OK2 HO SZ2) as [OK3 U3]; [rewrite SZ'; exact LT |].
    eexists. split; [reflexivity |]. split.
    + apply (acts_csr t _ (user t) iw KWrite v n c 0 x (i_size ir)); try assumption; unfold word_of; rewrite ?SH; try assumption; try reflexivity.
      * apply zero_row_ok with (r := r); assumption.
      * apply read_ok. exact OK.
      * split; [intros Q; destruct (Q eq_refl) |]. split; reflexivity.
      * split; reflexivity.
      * intros a. reflexivity.
    + split; [exact OK3 | discriminate].
  - (* csrrs, csrrc, rs1 = x0 *)
    destruct y as [| | | | | k v]; try discriminate T. rewrite !andb_true_iff in T. destruct T as [[[[[SH OC] OV] OD] ZR] NW].
    apply (CSR k v eq_refl SH _ _ OC). intros n c EN NM NR. rewrite negb_involutive in SH. unfold word_of in *. rewrite SH in *. cbn [negb] in *.
    unfold is_dst in OD. destruct (get_dst S (i_dst ir) 0) as [d |]; [| discriminate OD].
    destruct (opd_encodable_ok S false iw (user t) r xl_cases HO AP v OV) as (x & XV & _).
    destruct (write_some false iw (user t) r d (Rd o_rd) (read_csr t c) OD) as (u & WX). rewrite WX.
    destruct (write_ok S false iw (user t) r xl_cases HO AP d (Rd o_rd) (read_csr t c) u OD WX (read_range xlen t c OK)) as (m & NMm & WR & KF & KM & HP & HU).
    destruct (advance_ok t u (i_size ir) (top_mid _ _ OK) HU SZ2) as [OK3 U3]; [rewrite HP, SZ'; exact LT |].
    eexists. split; [reflexivity |]. split.
    + apply (acts_csr t _ u iw k v n c m x (i_size ir)); try assumption; unfold word_of; rewrite ?SH; try assumption; try reflexivity.
      * apply read_ok. exact OK.
      * rewrite <- (rs1_bits iw 0 (zero_row_ok r o_rs1 iw ZR AP)). cbn [Z.eqb].
        destruct k; [discriminate NW | |]; (split; [intros d0; reflexivity | intros f; reflexivity]).
    + split; [exact OK3 | discriminate].
Qed.

Lemma word_acts t iw : top_ok xlen t -> covers (abs t) -> hpc (tu t) <= max -> fetched (user t) iw ->
  (exists r, run_word S misa max t iw r) /\
  forall r, run_word S misa max t iw r -> exists t1, r = Some t1 /\ act (abs t) (abs t1) /\ good t t1.
Proof.
  intros OK CV LE F. pose proof OK as (W & X & MO & OF). pose proof (mo_user _ _ MO) as HO. cbn [abs m_user] in HO.
  destruct (proj1 (proj2 CV) LE iw F) as [[NM NE] | [LT [(m & i & (e & He & Me & <-) & Hi & NM & NB & ND) | (y & (e & He & Me & Hy & NM) & CK & ND)]]].
  - pose proof (word_illegal I iw HI (proj1 F) NM NE) as N.
    split; [eexists; right; split; [exact N | reflexivity] |]. intros r [(o & A & _) | [_ ->]]; [destruct (N o A) |].
    destruct (raised_ok t {| AccessSpec.t_tval := 0; AccessSpec.t_code := 2; AccessSpec.t_epc := hpc (user t) |} (user t) OK CV) as (t1 & E & A & G).
    { apply (st_illegal _ _ _ _ _ _ _ iw); [exact LE | exact F | |].
      - intros e He. apply NM. unfold im_spec, spec_of. destruct (long iw); exact He.
      - exists (user t). split; [reflexivity | apply unchanged_refl]. }
    exists t1. auto.
  - destruct (word_good I iw HI (proj1 F) misa max (user t) e i HO He Me Hi NM NB ND) as [(o & A) G].
    split; [eexists; left; exists o; split; [exact A | reflexivity] |]. intros r [(o' & A' & ->) | [N _]]; [| destruct (N o A)].
    destruct (G o' A') as (out & _ & EX & HD & E64). specialize (E64 LT).
    assert (ST : step (user t) out).
    { apply (st_instr _ _ _ _ _ _ out iw e i); try assumption. unfold im_spec, spec_of in He. destruct (long iw); exact He. }
    unfold run_opcode. pose proof (not_sys I iw HI (proj1 F) _ _ _ _ _ _ E64) as NS. fold S in E64. rewrite NS, E64. pose proof (exec_opcode_fs _ _ _ _ _ _ _ _ E64) as FS.
    destruct out as [u | q u].
    + destruct (done_ok t u OK ST (HD u eq_refl) FS) as (t1 & E & AC & GD). exists t1. auto.
    + destruct (raised_ok t q u OK CV ST) as (t1 & E & AC & GD). exists t1. auto.
  - destruct (sys_word I iw HI (proj1 F) e y He Me Hy NM CK) as [(o & A) G].
    split; [eexists; left; exists o; split; [exact A | reflexivity] |]. intros r [(o' & A' & ->) | [N _]]; [| destruct (N o A)].
    destruct (G o' A') as (rw & ir & AP & FI & RO). unfold run_opcode. rewrite FI.
    assert (SY : is_sys max (ds_manual (im_32 I)) (ds_manual (im_16 I)) (abs t) iw y).
    { split; [exact LE |]. split; [exact F |]. exists e. split; [| auto]. unfold im_spec, spec_of in He. destruct (long iw); exact He. }
    destruct (sys_exec_ok t iw y rw ir OK CV SY CK ND LT AP RO) as (t1 & E & AC & GD). exists t1. auto.
Qed.

Lemma inst_acts t c : top_ok xlen t -> covers (abs t) -> fetched (user t) (cached_word c (tu t) (hpc (tu t))) ->
  (exists r, one_inst S misa max t c r) /\
  forall r, one_inst S misa max t c r -> exists t1, r = Some t1 /\ act (abs t) (abs t1) /\ good t t1.
Proof.
  intros OK CV F. pose proof OK as (W & X & MO & OF). pose proof (mo_user _ _ MO) as HO. cbn [abs m_user] in HO.
  unfold one_inst. cbv zeta. pose proof (check_ok_addr I misa max (user t) HO (proj1 CV)) as CA. cbn [user hpc] in CA. rewrite CA.
  destruct (Z.ltb_spec max (hpc (tu t))) as [GT | LE].
  - split; [eexists; reflexivity |]. intros r ->.
    destruct (raised_ok t (fetch_fault (hpc (tu t))) (user t) OK CV) as (t1 & E & A & G); [| exists t1; auto].
    apply st_fault; [exact GT |]. exists (user t). split; [reflexivity | apply unchanged_refl].
  - pose proof (ok_pc _ _ HO) as P. cbn [user hpc] in P. fold xlen. destruct (Z.leb_spec (2 ^ xlen) (hpc (tu t))) as [B | _]; [lia |].
    apply word_acts; assumption.
Qed.

(** ** Between instructions *)
Lemma boundary_ok t ops : mid_ok xlen t -> (h_branch (tp t) = true -> h_pc (tp t) = hpc (tu t)) -> forallb line_op ops = true ->
  exists t2 o, boundary t ops = Some t2 /\ interrupted xlen o (abs t) (abs t2) /\ top_ok xlen t2 /\
    forall p, hart_run (tp t) ops = Some p -> match o with
      | Some i => i = h_code p
      | None => h_avail p = false \/ Z.testbit (mideleg_r p) (h_code p) && Z.testbit (sideleg_r p) (h_code p) = true end.
Proof.
  intros OK BP LO. pose proof OK as (W & X & MO & OF).
  assert (HOK : forallb (hart_op_ok (h_xlen (tp t))) ops = true).
  { rewrite forallb_forall in LO |- *. intros o Ho. specialize (LO o Ho). destruct o; cbn in LO |- *; try discriminate LO; exact LO. }
  destruct (run_defined ops (tp t) W HOK) as (p & E). pose proof (hart_run_wf ops (tp t) p W HOK E) as WP.
  pose proof (mo_priv _ _ MO) as LP. destruct (line_run ops (tp t) p W LP OF LO E) as (LK & O1 & PC & BR).
  assert (SAME : forall p2, like p p2 -> h_pc p2 = h_pc p -> h_branch p2 = h_branch p -> hart_wf p2 -> h_avail p2 = false ->
    let t2 := {| tu := at_pc (tu t) (next_of p2 (hpc (tu t))); tp := p2; t_mscr := t_mscr t; t_sscr := t_sscr t |} in
    abs t2 = abs t /\ top_ok xlen t2).
  { intros p2 L2 C2 B2 W2 O2 t2. pose proof (like_trans _ _ _ LK L2) as L.
    assert (A : abs t2 = abs t).
    { unfold abs, user, t2, mideleg_r, medeleg_r. cbn [tu tp t_mscr t_sscr at_pc hx hf hpc hm hfs].
      rewrite (lk_m _ _ L), (lk_s _ _ L), (lk_priv _ _ L), (lk_mi _ _ L), (lk_me _ _ L), (lk_ie _ _ L), (lk_xlen _ _ L). f_equal.
      - f_equal; [| rewrite (lk_status _ _ L); reflexivity]. unfold next_of. rewrite B2, BR, C2, PC. destruct (h_branch (tp t)); [apply BP; reflexivity | reflexivity].
      - unfold sf. rewrite (lk_status _ _ L). reflexivity. }
    split; [exact A |]. split; [exact W2 |]. split; [cbn [t2 tp]; rewrite (lk_xlen _ _ L); exact X |].
    split; [rewrite A; exact MO | exact O2]. }
  unfold boundary. rewrite E. unfold take_interrupt. destruct (h_avail p) eqn:AV; cbn [negb].
  2:{ destruct (SAME p (like_refl p) eq_refl eq_refl WP AV) as (A & B). do 2 eexists. split; [reflexivity |].
      split; [exact (A : interrupted xlen None _ _) |]. split; [exact B |].
      intros p0 E0. apply Some_inj in E0. subst p0. left. exact AV. }
  set (i := h_code p). set (q := {| q_int := true; q_tval := 0; q_code := i; q_epc := hpc (tu t) |}).
  assert (IR : is_irq i = true) by (apply WP; exact AV). assert (RG : 0 <= i < 16) by (apply irq_cases in IR; unfold irq_numbers in IR; cbn [In] in IR; lia).
  destruct (Z.testbit (mideleg_r p) i && Z.testbit (sideleg_r p) i) eqn:UD.
  - apply andb_true_iff in UD. destruct UD as [U1 U2].
    assert (TR : trap p q = Some p).
    { unfold trap. replace (dest_mode p q) with (Some 0); [reflexivity |]. unfold dest_mode. cbn [q q_int q_code].
      destruct (Z.leb_spec 32 i); [clear - RG H; lia |]. rewrite !land_bit_test by (clear - RG; lia). rewrite U1, U2. reflexivity. }
    rewrite TR.
    edestruct (SAME (set_counts (set_offer p false code_none) (h_taken p + 1) (h_returns p))) as (A & B); [constructor; reflexivity | reflexivity | reflexivity | | |].
    + apply set_counts_wf, set_offer_wf; [exact WP | discriminate].
    + reflexivity.
    + do 2 eexists. split; [reflexivity |]. split; [exact (A : interrupted xlen None _ _) |].
      split; [exact B |]. intros p0 E0. apply Some_inj in E0. subst p0. right. apply andb_true_iff. split; [exact U1 | exact U2].
  - assert (NU : not_user_delegated p q).
    { intros _ T. cbn [q q_code] in T |- *. rewrite T in UD. exact UD. }
    assert (RQ : req_ok q).
    { pose proof (ok_pc _ _ (mo_user _ _ MO)) as P. cbn [abs m_user user hpc] in P. pose proof (pow_le xlen xl_cases).
      unfold req_ok, q. cbn [q_code q_tval q_epc]. clear - RG P H. lia. }
    destruct (enter_ok xlen t p q OK LK WP RQ NU) as (p' & TR & B' & W' & O' & X' & N); [left; reflexivity | exact (ok_even _ _ (mo_user _ _ MO)) |].
    rewrite TR. set (p2 := set_counts (set_offer p' false code_none) (h_taken p' + 1) (h_returns p')).
    set (t2 := {| tu := at_pc (tu t) (next_of p2 (hpc (tu t))); tp := p2; t_mscr := t_mscr t; t_sscr := t_sscr t |}).
    destruct (N t2) as [EN MO2]; try reflexivity; [| constructor; reflexivity |].
    { cbn [t2 tu at_pc hpc]. unfold next_of. change (h_branch p2) with (h_branch p'). rewrite B'. reflexivity. }
    destruct (O1 AV) as [IE G]. fold i in IE, G. rewrite (lk_priv _ _ LK) in G. rewrite (lk_ie _ _ LK) in IE.
    unfold mideleg_r, sf in G. rewrite (lk_mi _ _ LK), (lk_status _ _ LK) in G.
    exists t2, (Some i). split; [reflexivity |]. split; [split; [exact IR |]; split; [| split; [exact G | exact EN]] |].
    + cbn [abs m_mie]. rewrite mie_read by (rewrite X; exact xl_cases). rewrite Z.land_spec, IE.
      apply irq_cases in IR. unfold irq_numbers in IR. cbn [In] in IR. clear - IR.
      repeat (destruct IR as [<- | IR]; [reflexivity |]). destruct IR.
    + split; [| intros p0 E0; apply Some_inj in E0; subst p0; reflexivity].
      split; [apply set_counts_wf, set_offer_wf; [exact W' | discriminate] |]. split; [exact X' |]. split; [exact MO2 | reflexivity].
Qed.

(** ** A run *)
Let run := m_runs xlen has_c max (ds_manual (im_32 I)) (ds_manual (im_16 I)).
Let covers_run := m_covered_run xlen has_c max (im_32 I) (im_16 I) (im_broken I).
Definition m_coherent (n : nat) (s : machine) (c : cache) : Prop :=
  forall a x, c a = Some x -> forall os s', (List.length os < n)%nat -> run os s s' -> hpc (m_user s') = a -> fetched (m_user s') x.

Lemma m_covered_step n s s1 s2 o : covers_run (Datatypes.S n) s -> act s s1 -> interrupted xlen o s1 s2 -> covers_run n s2.
Proof.
  intros [A B] AC IN. split.
  - intros os s' L R. apply (A (o :: os) s'); [cbn; lia | eapply mr_step; eassumption].
  - intros os1 os2 s1' s2' L R1 R2 E iw F. apply (B (o :: os1) os2 s1' s2') with (iw := iw); try assumption.
    + cbn [app List.length]. lia.
    + eapply mr_step; eassumption.
Qed.
Lemma m_coherent_word n t c : top_ok xlen t -> m_coherent (Datatypes.S n) (abs t) c -> fetched (user t) (cached_word c (tu t) (hpc (tu t))).
Proof.
  intros (_ & _ & MO & _) C. unfold cached_word. destruct (c (hpc (tu t))) as [x |] eqn:E.
  - apply (C (hpc (tu t)) x E [] (abs t)); [cbn; lia | apply mr_end | reflexivity].
  - apply (fetched_load (user t)). apply (mo_user _ _ MO).
Qed.
Lemma m_coherent_step n t c c' s1 s2 o : top_ok xlen t -> covers_run (Datatypes.S n) (abs t) -> m_coherent (Datatypes.S n) (abs t) c ->
  cache_after c (tu t) (hpc (tu t)) c' -> act (abs t) s1 -> interrupted xlen o s1 s2 -> m_coherent n s2 c'.
Proof.
  intros OK [_ B] C [C0 C1] AC IN a x E os s' L R HP.
  assert (R' : run (o :: os) (abs t) s') by (eapply mr_step; eassumption).
  destruct (Z.eq_dec a (hpc (tu t))) as [-> | NE].
  - destruct C0 as [C0 | C0]; rewrite C0 in E; [| discriminate E]. apply Some_inj in E. subst x.
    apply (B [] (o :: os) (abs t) s'); [cbn; lia | apply mr_end | exact R' | exact HP |]. apply (m_coherent_word n); assumption.
  - destruct (C1 a NE) as [C1' | C1']; rewrite C1' in E; [| discriminate E].
    apply (C a x E (o :: os) s'); [cbn; lia | exact R' | exact HP].
Qed.
Lemma end_same t : top_ok xlen t ->
  {| tu := StepModel.set_pc (s_xlen S) (tu t) (hpc (tu t)); tp := tp t; t_mscr := t_mscr t; t_sscr := t_sscr t |} = t.
Proof.
  intros (_ & _ & MO & _). pose proof (ok_pc _ _ (mo_user _ _ MO)) as P. cbn [abs m_user user hpc] in P.
  unfold StepModel.set_pc. rewrite wrap_id by exact P. destruct t as [u p a b]. cbn. f_equal. destruct u; reflexivity.
Qed.

Lemma mach_sound : forall evs t c res, top_ok xlen t -> covers_run (List.length evs) (abs t) ->
  m_coherent (List.length evs) (abs t) c -> forallb (forallb line_op) evs = true -> mach_run S misa max evs t c res ->
  exists t' os, res = Some t' /\ List.length os = List.length evs /\ run os (abs t) (abs t') /\ top_ok xlen t'.
Proof.
  induction evs as [| ops evs IH]; intros t c res OK CR CO LO M.
  - inversion M; subst. rewrite end_same by exact OK. exists t, []. split; [reflexivity |]. split; [reflexivity |]. split; [apply mr_end | exact OK].
  - cbn [forallb] in LO. apply andb_true_iff in LO. destruct LO as [L1 LO].
    pose proof (proj1 CR [] (abs t) ltac:(cbn; lia) (mr_end _ _ _ _ _ (abs t))) as CV.
    destruct (inst_acts t c OK CV (m_coherent_word _ t c OK CO)) as [_ G].
    inversion M as [| ? ? ? ? O | ? ? ? ? t1 O BN | ? ? ? ? c' t1 t2 ? O CA BS R]; subst.
    + destruct (G _ O) as (t1 & E & _). discriminate E.
    + destruct (G _ O) as (t1' & E & AC & (OK1 & BP)). apply Some_inj in E. subst t1'.
      destruct (boundary_ok t1 ops OK1 BP L1) as (t2 & o & E & _). rewrite E in BN. discriminate BN.
    + destruct (G _ O) as (t1' & E & AC & (OK1 & BP)). apply Some_inj in E. subst t1'.
      destruct (boundary_ok t1 ops OK1 BP L1) as (t2' & o & E & IN & OK2 & _). rewrite E in BS. apply Some_inj in BS. subst t2'.
      destruct (IH t2 c' res OK2) as (t' & os & RS & LN & RU & OK'); try assumption.
      * eapply m_covered_step; eassumption.
      * exact (m_coherent_step _ t c c' _ _ o OK CR CO CA AC IN).
      * exists t', (o :: os). split; [exact RS |]. split; [cbn; congruence |]. split; [eapply mr_step; eassumption | exact OK'].
Qed.
Lemma mach_exists : forall evs t c, top_ok xlen t -> covers_run (List.length evs) (abs t) ->
  m_coherent (List.length evs) (abs t) c -> forallb (forallb line_op) evs = true -> exists res, mach_run S misa max evs t c res.
Proof.
  induction evs as [| ops evs IH]; intros t c OK CR CO LO.
  - eexists. apply mach_end.
  - cbn [forallb] in LO. apply andb_true_iff in LO. destruct LO as [L1 LO].
    pose proof (proj1 CR [] (abs t) ltac:(cbn; lia) (mr_end _ _ _ _ _ (abs t))) as CV.
    destruct (inst_acts t c OK CV (m_coherent_word _ t c OK CO)) as [(r & O) G].
    destruct (G _ O) as (t1 & -> & AC & (OK1 & BP)).
    destruct (boundary_ok t1 ops OK1 BP L1) as (t2 & o & E & IN & OK2 & _).
    set (c' := fun a => if a =? hpc (tu t) then Some (cached_word c (tu t) (hpc (tu t))) else c a).
    assert (CF : cache_after c (tu t) (hpc (tu t)) c').
    { split; [left; unfold c'; rewrite Z.eqb_refl; reflexivity |]. intros b NE. left. unfold c'. apply Z.eqb_neq in NE. rewrite NE. reflexivity. }
    destruct (IH t2 c' OK2) as (res & R); try assumption.
    + eapply m_covered_step; eassumption.
    + exact (m_coherent_step _ t c c' _ _ o OK CR CO CF AC IN).
    + exists res. eapply mach_step; eassumption.
Qed.
End Inst.
