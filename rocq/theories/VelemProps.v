(** C36 and C37: element-wise and fixed-point vector instructions.  [exec st I = Some st']: the
    instruction ran without undefined behaviour. *)
From Coq Require Import ZArith Bool List Lia.
From Verif Require Import Bits Memory VcfgSpec VelemSpec VcfgModel VcfgProofs VelemModel VelemProofs1 VelemProofs2
  VelemProofs3 VelemProofs4 VelemProofs5 VelemProofs6.
Import ListNotations.
Local Open Scope Z_scope.

(** Model only, for the examples: a 16-byte-register machine whose byte [a] is [(7 * a + 93) mod 256]. *)
Definition demo_regs : mem := fun a => (7 * a + 93) mod 256.
Definition demo (sew lmul8 vl start rm : Z) (sat exc : bool) : vstate :=
  {| regs := demo_regs;
     cfg := {| vlenb := 16; vtype := 0; vl := vl; vlmax := 16 * lmul8 / (8 * sew); lmul8 := lmul8; sew := sew;
               vta := false; vma := false; vstart := start; vxsat := sat; vxrm := rm; vexc := exc; stored := fun _ => 0 |} |}.
Definition demo_inst (o : vop) (vd vs2 : Z) (s : src) (vm : bool) : vinst :=
  {| vi_op := o; vi_vd := vd; vi_vs2 := vs2; vi_src1 := s; vi_vm := vm |}.
Lemma demo_config sew lmul8 vl : In sew [1; 2; 4; 8] -> In lmul8 [1; 2; 4; 8; 16; 32; 64] ->
  0 <= vl <= 16 * lmul8 / (8 * sew) -> config 16 sew lmul8 vl.
Proof. intros H1 H2 H3. split; [exists 4; split; [lia|reflexivity]|]. auto. Qed.

(** C36.  Every modelled element-wise instruction in every legal configuration: exactly the active
    body elements change, to the value computed from the operands before the instruction; vxsat is
    accumulated; vstart becomes 0; the rest of the vector state is unchanged.  Missing: an active
    vrem element with the overflowing operands (refuted below). *)
Theorem vector_elementwise_partial : forall st I,
  legal (vlenb (cfg st)) (sew (cfg st)) (lmul8 (cfg st)) (vl (cfg st)) I ->
  byte_mem (regs st) -> vexc (cfg st) = false -> 0 <= vstart (cfg st) -> 0 <= vxrm (cfg st) < 4 ->
  (forall j, active (vlenb (cfg st)) (vstart (cfg st)) (vl (cfg st)) (regs st) I j ->
     ~ (vi_op I = Vrem /\ 4 <= sew (cfg st) /\
        sgn (8 * sew (cfg st)) (elem (vlenb (cfg st)) (regs st) (vi_vs2 I) (sew (cfg st)) j) = - 2 ^ (8 * sew (cfg st) - 1) /\
        sgn (8 * sew (cfg st)) (src1_elem (vlenb (cfg st)) (regs st) (sew (cfg st)) (vi_src1 I) j) = -1)) ->
  exists st', exec st I = Some st' /\
    elementwise (vlenb (cfg st)) (sew (cfg st)) (vxrm (cfg st)) (vstart (cfg st)) (vl (cfg st)) I
      (regs st) (regs st') (vxsat (cfg st)) (vxsat (cfg st')) /\
    vstart (cfg st') = 0 /\ vl (cfg st') = vl (cfg st) /\ vtype (cfg st') = vtype (cfg st) /\
    sew (cfg st') = sew (cfg st) /\ lmul8 (cfg st') = lmul8 (cfg st) /\ vlenb (cfg st') = vlenb (cfg st) /\
    vlmax (cfg st') = vlmax (cfg st) /\ vxrm (cfg st') = vxrm (cfg st) /\ vexc (cfg st') = false.
Proof.
  intros st I HL Hb Hx Hs Hr Hrem. destruct (exec_elementwise st I HL Hb Hx Hs Hr Hrem) as (st' & E & HE & HC).
  exists st'. split; [exact E|]. split; [exact HE|]. rewrite HC. cbn. repeat split; exact Hx.
Qed.
Print Assumptions vector_elementwise_partial.
(** vwmacc.vv v4, v8, v9, v0.t at SEW=16, LMUL=1, vl=7, vstart=1. *)
Example vector_elementwise_case : legal 16 2 8 7 (demo_inst Vwmacc 4 9 (Vec 8) false).
Proof.
  unfold legal. cbn [widths demo_inst vi_op vi_vd vi_vs2 vi_src1 vi_vm has_src1].
  split; [apply demo_config; cbn; lia|]. split; [exact Logic.I|].
  unfold group, overlap_ok, nregs, emul8. cbn. repeat split; lia.
Qed.
Example vector_elementwise_value :
  option_map (fun s => (map (fun j => elem 16 (regs s) 4 4 j) [0; 1; 2; 3; 4; 5; 6; 7], vstart (cfg s)))
    (exec (demo 2 8 7 1 0 false false) (demo_inst Vwmacc 4 9 (Vec 8) false))
  = Some ([841688093; 1313292345; 1792062070; 2372759474; 2515576694; 3199709353; 3349564310; 4142917857], 0).
Proof. vm_compute. reflexivity. Qed.

(** C36: the configurations assumed above are those that programs reach: after any history from
    reset, vl > 0 implies a valid configuration and rounding mode. *)
Theorem vector_config_reachable : forall k vtype0 l s, 3 <= k <= 13 ->
  run (init (2 ^ k) vtype0) l = Some s -> 0 < vl s ->
  config (vlenb s) (sew s) (lmul8 s) (vl s) /\ 0 <= vxrm s < 4.
Proof.
  intros k t0 l s Hk R Hvl.
  assert (0 <= 2 ^ k <= 8192) as Hb. { pose proof (pow2_pos k ltac:(lia)). change 8192 with (2 ^ 13). split; [lia|]. apply Z.pow_le_mono_r; lia. }
  pose proof (run_inv l _ _ (init_inv (2 ^ k) t0 Hb) R) as (_ & _ & [C|(D & C)] & X & _); [lia|].
  pose proof (run_vlenb _ _ _ R) as V. cbn [init vlenb] in V.
  pose proof (derived_sew s D) as (S & S4). destruct D as (L & _ & Q & M).
  split; [|exact X]. split; [exists k; split; [lia|exact V]|].
  assert (0 <= VcfgSpec.vsew (vtype s)) by (unfold VcfgSpec.vsew; apply Z.mod_pos_bound; lia).
  assert (In (sew s) [1; 2; 4; 8]) as HS.
  { rewrite S. assert (VcfgSpec.vsew (vtype s) = 0 \/ VcfgSpec.vsew (vtype s) = 1 \/ VcfgSpec.vsew (vtype s) = 2 \/ VcfgSpec.vsew (vtype s) = 3) as HV by lia.
    destruct HV as [-> |[-> |[-> | ->]]]; cbn; auto. }
  split; [exact HS|].
  assert (1 <= sew s) by (destruct HS as [<-|[<-|[<-|[<-|[]]]]]; lia).
  assert (In (lmul8 s) [8; 16; 32; 64; 0; 1; 2; 4]) as HL.
  { rewrite L, land7. assert (0 <= vtype s mod 8 < 8) as HV by (apply Z.mod_pos_bound; lia).
    apply nth_In. cbn [length]. lia. }
  assert (0 <= vlenb s * lmul8 s) as HP.
  { assert (0 <= lmul8 s) by (clear - HL; destruct HL as [<-|[<-|[<-|[<-|[<-|[<-|[<-|[<-|[]]]]]]]]]; lia). nia. }
  rewrite Z.quot_div_nonneg in M by lia.
  split; [|lia].
  clear - HL M C Hvl H0. destruct HL as [<-|[<-|[<-|[<-|[HL|[<-|[<-|[<-|[]]]]]]]]]; cbn; auto 10.
  rewrite <- HL, Z.mul_0_r, Z.div_0_l in M by lia. lia.
Qed.
Print Assumptions vector_config_reachable.
Example vector_config_reachable_case :
  option_map (fun s => (vl s, sew s, lmul8 s)) (run (init 16 0) [Vset false false 1000 17]) = Some (8, 4, 16).
Proof. reflexivity. Qed.

(** C36: an instruction whose destination or vector source would need an effective LMUL below 1/8 or
    above 8 leaves the registers alone and sets the exception flag. *)
Theorem vector_reserved_emul : forall st I wd w2 w1,
  config (vlenb (cfg st)) (sew (cfg st)) (lmul8 (cfg st)) (vl (cfg st)) ->
  widths (vi_op I) (sew (cfg st)) = (wd, w2, w1) ->
  ~ (1 <= emul8 (sew (cfg st)) (lmul8 (cfg st)) wd <= 64 /\ 1 <= emul8 (sew (cfg st)) (lmul8 (cfg st)) w2 <= 64) ->
  exists st', exec st I = Some st' /\ regs st' = regs st /\ vexc (cfg st') = true.
Proof.
  intros st I wd w2 w1 HC E HN. unfold exec.
  destruct (lmul_check (vi_op I) && (32 <? lmul8 (cfg st))); [exists (raise st); auto|].
  destruct (sizes (vi_op I) (sew (cfg st))) as [[[d s2] s1]|] eqn:ES; [|exists (raise st); auto].
  assert ((d, s2, s1) = (wd, w2, w1)) as EQ.
  { rewrite <- E. clear - ES. destruct (vi_op I); cbn [sizes widths] in *;
      match type of ES with (if ?x then _ else _) = _ => destruct x; [congruence|discriminate] end. }
  injection EQ as -> -> ->.
  destruct (vexc (cfg st)) eqn:EX; [exists st; auto|]. cbv zeta.
  destruct HC as (_ & Hs & Hl & _).
  assert (1 <= sew (cfg st)) by (destruct Hs as [<-|[<-|[<-|[<-|[]]]]]; lia).
  assert (1 <= lmul8 (cfg st) <= 64) by (destruct Hl as [<-|[<-|[<-|[<-|[<-|[<-|[<-|[]]]]]]]]; lia).
  assert (0 <= wd /\ 0 <= w2) as (HWD & HW2).
  { assert (0 <= 2 * sew (cfg st)) as Ht by lia. clear HN.
    destruct (vi_op I); cbn [widths] in E; revert Ht E; generalize (2 * sew (cfg st)) as t; intros t Ht E;
      injection E as <- <- _; split; try lia;
      cbn [sizes] in ES;
      match goal with |- 0 <= _ / ?k => destruct (Z.eqb_spec k 2), (Z.eqb_spec k 4), (Z.eqb_spec k 8) end;
      subst; try (apply Z.div_pos; lia); cbn in ES; discriminate. }
  set (ws := match shape_of (vi_op I) with Unary => [wd; w2] | _ => [wd; w2; w1] end).
  assert (existsb (fun w => 64 <? Z.quot (lmul8 (cfg st) * w) (sew (cfg st))) ws
    || existsb (fun w => Z.quot (lmul8 (cfg st) * w) (sew (cfg st)) =? 0) ws = true) as ->; [|exists (raise st); auto].
  assert (exists w, In w ws /\ 0 <= w /\ ~ 1 <= emul8 (sew (cfg st)) (lmul8 (cfg st)) w <= 64) as (w & Hin & Hw0 & Hw).
  { assert (In wd ws /\ In w2 ws) as (? & ?) by (subst ws; destruct (shape_of (vi_op I)); cbn; auto).
    destruct (Z_le_dec 1 (emul8 (sew (cfg st)) (lmul8 (cfg st)) wd)), (Z_le_dec (emul8 (sew (cfg st)) (lmul8 (cfg st)) wd) 64);
      [exists w2|exists wd|exists wd|exists wd]; (split; [assumption|split; [assumption|lia]]). }
  unfold emul8 in Hw. apply orb_true_iff.
  assert (0 <= lmul8 (cfg st) * w / sew (cfg st)) by (apply Z.div_pos; nia).
  destruct (Z.eq_dec (lmul8 (cfg st) * w / sew (cfg st)) 0) as [E0|E0]; [right|left];
    apply existsb_exists; exists w; (split; [exact Hin|]); rewrite Z.quot_div_nonneg by nia; [apply Z.eqb_eq; exact E0|].
  apply Z.ltb_lt. lia.
Qed.
Print Assumptions vector_reserved_emul.
(** vwadd.vv at LMUL=8: the destination would need 16 registers. *)
Example vector_reserved_emul_case : emul8 1 64 2 = 128 /\
  option_map (fun s => vexc (cfg s)) (exec (demo 1 64 4 0 0 false false) (demo_inst Vwadd 0 8 (Vec 16) true)) = Some true.
Proof. split; reflexivity. Qed.

(** C36 refuted, vrem: a legal instruction whose C++ evaluation is undefined (INT_MIN % -1), where
    the manual requires the result 0. *)
Theorem vector_rem_refuted : exists st I, legal (vlenb (cfg st)) (sew (cfg st)) (lmul8 (cfg st)) (vl (cfg st)) I /\
  vexc (cfg st) = false /\ vstart (cfg st) = 0 /\ vxrm (cfg st) = 0 /\ byte_mem (regs st) /\
  vrel (vi_op I) (8 * sew (cfg st)) 0 true (2 ^ 31) (2 ^ 32 - 1) 0 0 false /\
  exec st I = None.
Proof.
  exists {| regs := fun a => if a =? 35 then 128 else 0; cfg := cfg (demo 4 8 1 0 0 false false) |},
    (demo_inst Vrem 1 2 (Scalar (-1)) true).
  split.
  { unfold legal. cbn [widths demo_inst vi_op vi_vd vi_vs2 vi_src1 vi_vm has_src1 demo cfg].
    split; [apply demo_config; cbn; lia|]. split; [exact Logic.I|].
    unfold group, overlap_ok, nregs, emul8. cbn. repeat split; lia. }
  split; [reflexivity|]. split; [reflexivity|]. split; [reflexivity|]. split.
  { intros a. cbn [regs]. destruct (a =? 35); lia. }
  split; [cbn [vrel demo_inst vi_op demo cfg sew]; split; vm_compute; reflexivity|]. vm_compute. reflexivity.
Qed.
Print Assumptions vector_rem_refuted.

(** C36 refuted, exception flag: once an illegal vector instruction has set the flag, every later
    vector instruction is ignored: the flag is never cleared and no trap is taken. *)
Theorem vector_exception_sticky_refuted :
  (forall st I, vexc (cfg st) = true -> exists st', exec st I = Some st' /\ regs st' = regs st /\
     vexc (cfg st') = true /\ vl (cfg st') = vl (cfg st) /\ vstart (cfg st') = vstart (cfg st)) /\
  (exists st bad good st1, legal (vlenb (cfg st)) (sew (cfg st)) (lmul8 (cfg st)) (vl (cfg st)) good /\
     vexc (cfg st) = false /\ exec st bad = Some st1 /\ exec st1 good = Some st1 /\
     elem 16 (regs st1) 8 1 0 <> wrap 8 (elem 16 (regs st) 16 1 0 + elem 16 (regs st) 24 1 0) /\
     vi_op good = Vadd /\ vi_vd good = 8 /\ vi_vs2 good = 16 /\ vi_src1 good = Vec 24 /\ vi_vm good = true).
Proof.
  split.
  - intros st I H. unfold exec.
    destruct (lmul_check (vi_op I) && (32 <? lmul8 (cfg st))); [exists (raise st); auto|].
    destruct (sizes (vi_op I) (sew (cfg st))) as [[[d s2] s1]|]; [|exists (raise st); auto].
    rewrite H. exists st. auto.
  - exists (demo 1 64 4 0 0 false false), (demo_inst Vwadd 0 8 (Vec 16) true), (demo_inst Vadd 8 16 (Vec 24) true),
      (raise (demo 1 64 4 0 0 false false)).
    split.
    { unfold legal. cbn [widths demo_inst vi_op vi_vd vi_vs2 vi_src1 vi_vm has_src1 demo cfg].
      split; [apply demo_config; cbn; lia|]. split; [exact Logic.I|].
      unfold group, overlap_ok, nregs, emul8. cbn. repeat split; try lia; discriminate. }
    split; [reflexivity|]. split; [reflexivity|]. split; [reflexivity|]. split; [vm_compute; discriminate|].
    repeat split; reflexivity.
Qed.
Print Assumptions vector_exception_sticky_refuted.

(** C36 refuted, reserved register numbers: a source group that is not aligned to its LMUL is read
    past the end of the operand's register list instead of being rejected. *)
Theorem vector_misaligned_source_refuted : exists st I,
  config (vlenb (cfg st)) (sew (cfg st)) (lmul8 (cfg st)) (vl (cfg st)) /\ vexc (cfg st) = false /\
  group (sew (cfg st)) (lmul8 (cfg st)) (sew (cfg st)) (vi_vd I) /\ vi_vs2 I mod nregs (sew (cfg st)) (lmul8 (cfg st)) (sew (cfg st)) <> 0 /\
  exec st I = None.
Proof.
  exists (demo 1 16 32 0 0 false false), (demo_inst Vadd 8 3 (Scalar 1) true).
  split; [apply demo_config; cbn; lia|]. split; [reflexivity|].
  split; [unfold group, nregs, emul8; cbn; repeat split; lia|]. split; [cbn; discriminate|vm_compute; reflexivity].
Qed.
Print Assumptions vector_misaligned_source_refuted.

(** C37.  Fixed-point instructions: exact value, rounded by vxrm, saturated (or wrapped) to SEW;
    vxsat is set iff it was set or an active element saturated. *)
Theorem fixed_point_exact : forall st I, In (vi_op I) fixed_ops ->
  legal (vlenb (cfg st)) (sew (cfg st)) (lmul8 (cfg st)) (vl (cfg st)) I ->
  byte_mem (regs st) -> vexc (cfg st) = false -> 0 <= vstart (cfg st) -> 0 <= vxrm (cfg st) < 4 ->
  let '(wd, w2, w1) := widths (vi_op I) (sew (cfg st)) in
  let result j := fx_result (vi_op I) (8 * sew (cfg st)) (vxrm (cfg st))
    (elem (vlenb (cfg st)) (regs st) (vi_vs2 I) w2 j) (src1_elem (vlenb (cfg st)) (regs st) w1 (vi_src1 I) j) in
  let act := active (vlenb (cfg st)) (vstart (cfg st)) (vl (cfg st)) (regs st) I in
  exists st', exec st I = Some st' /\
    (forall j, act j -> elem (vlenb (cfg st)) (regs st') (vi_vd I) wd j = fst (result j)) /\
    (vxsat (cfg st') = true <-> vxsat (cfg st) = true \/ exists j, act j /\ snd (result j) = true).
Proof.
  intros st I Hop HL Hb Hx Hs Hr.
  assert (forall j, active (vlenb (cfg st)) (vstart (cfg st)) (vl (cfg st)) (regs st) I j ->
     ~ rem_overflow (sew (cfg st)) I (elem (vlenb (cfg st)) (regs st) (vi_vs2 I) (sew (cfg st)) j)
         (src1_elem (vlenb (cfg st)) (regs st) (sew (cfg st)) (vi_src1 I) j)) as Hrem.
  { intros j _ (Ho & _). rewrite Ho in Hop. cbn in Hop. repeat (destruct Hop as [Hop|Hop]; [discriminate Hop|]). exact Hop. }
  destruct (exec_elementwise st I HL Hb Hx Hs Hr Hrem) as (st' & E & HE & _).
  pose proof HL as HL'. red in HL'. unfold elementwise in HE.
  destruct (widths (vi_op I) (sew (cfg st))) as [[wd w2] w1] eqn:EW. cbv zeta.
  destruct HL' as ((_ & Hsew & _) & _).
  destruct HE as (sat & H1 & _ & H3).
  assert (forall j, active (vlenb (cfg st)) (vstart (cfg st)) (vl (cfg st)) (regs st) I j ->
     (elem (vlenb (cfg st)) (regs st') (vi_vd I) wd j, sat j) =
     fx_result (vi_op I) (8 * sew (cfg st)) (vxrm (cfg st))
       (elem (vlenb (cfg st)) (regs st) (vi_vs2 I) w2 j) (src1_elem (vlenb (cfg st)) (regs st) w1 (vi_src1 I) j)) as HF.
  { intros j Hj. specialize (H1 j Hj). pose proof (widths_w1 _ _ _ _ _ EW) as Ew1.
    assert (inw (8 * w2) (elem (vlenb (cfg st)) (regs st) (vi_vs2 I) w2 j)) as Hix.
    { apply elem_inw; [exact Hb|]. destruct (vi_op I); cbn in Hop; cbn [widths] in EW; try (injection EW as <- <- <-);
        try (destruct Hsew as [<-|[<-|[<-|[<-|[]]]]]; lia).
      all: exfalso; intuition discriminate. }
    assert (inw (8 * w1) (src1_elem (vlenb (cfg st)) (regs st) w1 (vi_src1 I) j)) as Hiy.
    { subst w1. assert (0 <= sew (cfg st)) by (destruct Hsew as [<-|[<-|[<-|[<-|[]]]]]; lia).
      destruct (vi_src1 I); cbn [src1_elem]; [apply elem_inw; assumption|]. unfold inw; apply wrap_range; lia. }
    revert H1 Hix Hiy. generalize (elem (vlenb (cfg st)) (regs st') (vi_vd I) wd j) as r.
    generalize (elem (vlenb (cfg st)) (regs st) (vi_vs2 I) w2 j) as x.
    generalize (src1_elem (vlenb (cfg st)) (regs st) w1 (vi_src1 I) j) as y.
    generalize (sat j) as s. intros s y x r HV Hx' Hy'.
    apply (fx_of_vrel (vi_op I) (8 * sew (cfg st)) (vxrm (cfg st)) (mbit (vlenb (cfg st)) (regs st) I j) x y
             (elem (vlenb (cfg st)) (regs st) (vi_vd I) wd j) r s); try assumption.
    - destruct Hsew as [<-|[<-|[<-|[<-|[]]]]]; red; lia.
    - unfold w2_of. replace (8 * sew (cfg st) / 8) with (sew (cfg st)); [rewrite EW; exact Hx'|].
      rewrite Z.mul_comm, Z.div_mul by lia. reflexivity.
    - subst w1. exact Hy'. }
  exists st'. split; [exact E|]. split.
  - intros j Hj. rewrite <- (HF j Hj). reflexivity.
  - rewrite H3. split; (intros [H|(j & Hj & Hsat)]; [left; exact H|right; exists j; split; [exact Hj|]]).
    + rewrite <- (HF j Hj). exact Hsat.
    + rewrite <- (HF j Hj) in Hsat. exact Hsat.
Qed.
Print Assumptions fixed_point_exact.
(** vnclip.wx v1, v2, 3 at SEW=8: one of the elements saturates. *)
Example fixed_point_exact_case : legal 16 1 8 16 (demo_inst Vnclip 1 2 (Scalar 3) true) /\
  fx_result Vnclip 8 0 (2 ^ 15 - 1) 3 = (127, true) /\ fx_result Vnclip 8 0 (2 ^ 16 - 12) 3 = (255, false) /\
  option_map (fun s => vxsat (cfg s)) (exec (demo 1 8 16 0 0 false false) (demo_inst Vnclip 1 2 (Scalar 3) true)) = Some true.
Proof.
  split.
  { unfold legal. cbn [widths demo_inst vi_op vi_vd vi_vs2 vi_src1 vi_vm has_src1].
    split; [apply demo_config; cbn; lia|]. split; [exact Logic.I|].
    unfold group, overlap_ok, nregs, emul8. cbn. repeat split; lia. }
  split; [reflexivity|]. split; vm_compute; reflexivity.
Qed.

(** C36, immediates.  The .vi forms behave as the element-wise instruction with the architected
    immediate.  Missing: vsll.vi, vsrl.vi, vsra.vi at SEW=64 (refuted below). *)
Theorem vector_immediate_partial : forall st o vd vs2 raw vm, has_vi o = true ->
  let I := demo_inst o vd vs2 (Scalar (imm_spec o raw)) vm in
  legal (vlenb (cfg st)) (sew (cfg st)) (lmul8 (cfg st)) (vl (cfg st)) I ->
  byte_mem (regs st) -> vexc (cfg st) = false -> 0 <= vstart (cfg st) -> 0 <= vxrm (cfg st) < 4 ->
  (In o [Vsll; Vsrl; Vsra] -> sew (cfg st) < 8) ->
  exists st', exec_vi st o vd vs2 raw vm = Some st' /\
    elementwise (vlenb (cfg st)) (sew (cfg st)) (vxrm (cfg st)) (vstart (cfg st)) (vl (cfg st)) I
      (regs st) (regs st') (vxsat (cfg st)) (vxsat (cfg st')) /\ vstart (cfg st') = 0.
Proof.
  intros st o vd vs2 raw vm Hv I HL Hb Hx Hs Hr Hsh.
  set (I' := demo_inst o vd vs2 (Scalar (match imm_operand o raw with Some x => x | None => 0 end)) vm).
  assert (exec_vi st o vd vs2 raw vm = exec st I') as ->.
  { unfold exec_vi, I', demo_inst. destruct o; try discriminate Hv; reflexivity. }
  assert (legal (vlenb (cfg st)) (sew (cfg st)) (lmul8 (cfg st)) (vl (cfg st)) I') as HL'.
  { destruct o; try discriminate Hv; exact HL. }
  assert (o <> Vrem) as Hnr by (intros ->; discriminate Hv).
  destruct (exec_elementwise st I' HL' Hb Hx Hs Hr) as (st' & E & HE & HC).
  { intros j _ (Ho & _). apply Hnr. exact Ho. }
  exists st'. split; [exact E|]. split; [|rewrite HC; reflexivity].
  assert (1 <= sew (cfg st)) as Hs1.
  { red in HL. destruct (widths (vi_op I) (sew (cfg st))) as [[? ?] ?]. destruct HL as ((_ & Hsew & _) & _).
    destruct Hsew as [<-|[<-|[<-|[<-|[]]]]]; lia. }
  apply (imm_elementwise _ _ (lmul8 (cfg st)) _ _ o vd vs2 raw vm); try assumption.
  red in HL. destruct (widths (vi_op I) (sew (cfg st))) as [[? ?] ?]. apply HL.
Qed.
Print Assumptions vector_immediate_partial.
Example vector_immediate_case : legal 16 4 8 4 (demo_inst Vsrl 1 2 (Scalar (imm_spec Vsrl 20)) true) /\
  option_map (fun s => elem 16 (regs s) 1 4 0) (exec_vi (demo 4 8 4 0 0 false false) Vsrl 1 2 20 true) = Some 1316.
Proof.
  split; [|vm_compute; reflexivity].
  unfold legal. cbn [widths demo_inst vi_op vi_vd vi_vs2 vi_src1 vi_vm has_src1].
  split; [apply demo_config; cbn; lia|]. split; [exact Logic.I|].
  unfold group, overlap_ok, nregs, emul8. cbn. repeat split; lia.
Qed.

(** C36, immediates, refuted: vsrl.vi by 20 at SEW=64 shifts by 52. *)
Theorem vector_immediate_refuted : exists st I,
  I = demo_inst Vsrl 1 2 (Scalar (imm_spec Vsrl 20)) true /\
  legal (vlenb (cfg st)) (sew (cfg st)) (lmul8 (cfg st)) (vl (cfg st)) I /\
  vexc (cfg st) = false /\ vstart (cfg st) = 0 /\ vl (cfg st) = 1 /\ sew (cfg st) = 8 /\
  exists st', exec_vi st Vsrl 1 2 20 true = Some st' /\
    elem 16 (regs st') 1 8 0 = elem 16 (regs st) 2 8 0 / 2 ^ 52 /\
    elem 16 (regs st') 1 8 0 <> elem 16 (regs st) 2 8 0 / 2 ^ 20.
Proof.
  exists (demo 8 8 1 0 0 false false), (demo_inst Vsrl 1 2 (Scalar (imm_spec Vsrl 20)) true).
  split; [reflexivity|]. split.
  { unfold legal. cbn [widths demo_inst vi_op vi_vd vi_vs2 vi_src1 vi_vm has_src1 demo cfg].
    split; [apply demo_config; cbn; lia|]. split; [exact Logic.I|].
    unfold group, overlap_ok, nregs, emul8. cbn. repeat split; lia. }
  split; [reflexivity|]. split; [reflexivity|]. split; [reflexivity|]. split; [reflexivity|].
  destruct (exec_vi (demo 8 8 1 0 0 false false) Vsrl 1 2 20 true) as [st'|] eqn:E; [|vm_compute in E; discriminate].
  exists st'. split; [reflexivity|].
  assert (Some (elem 16 (regs st') 1 8 0) = option_map (fun s => elem 16 (regs s) 1 8 0) (exec_vi (demo 8 8 1 0 0 false false) Vsrl 1 2 20 true)) as EQ
    by (rewrite E; reflexivity).
  clear E. revert EQ. generalize (elem 16 (regs st') 1 8 0) as e. intros e EQ. vm_compute in EQ. injection EQ as ->.
  split; [vm_compute; reflexivity|vm_compute; discriminate].
Qed.
Print Assumptions vector_immediate_refuted.
