(** Vector floating-point compares (C84), reductions (C85), moves (C86), legality (C83). *)
From Coq Require Import ZArith Bool List Lia.
From Verif Require Import Bits Memory IeeeSpec FpSpec FarithSpec FpProofs FarithProofs FarithExec FarithProps VelemSpec VcfgModel VelemModel VelemProofs4 VelemProps CounterProofs
  VmaskSpec VmaskModel VmaskProofs1 VmaskProofs3 VmaskProofs4 FvSpec FvModel FvElem FvMain FvProps FrSpec FrModel FrProofs.
Import ListNotations.
Local Open Scope Z_scope.

(** * C84 *)

Definition fcmp_ready (st : fstate) (vs2 : Z) (s1 : fsrc) : Prop :=
  let c := cfg (vs st) in
  config (vlenb c) (sew c) (lmul8 c) (vl c) /\ In (sew c) [4; 8] /\ group (sew c) (lmul8 c) (sew c) vs2 /\
  match s1 with FV r => group (sew c) (lmul8 c) (sew c) r | FS r => 0 <= fpr st r < 2 ^ 64 /\ boxed (ffmt (8 * sew c)) (fpr st r) = true end /\
  byte_mem (regs (vs st)) /\ vexc c = false /\ 0 <= vstart c.
(** The active elements, and the flags element [i] raises. *)
Definition fcmp_active (st : fstate) (vm : bool) (i : Z) : Prop :=
  let c := cfg (vs st) in vstart c <= i < vl c /\ mask_of (vlenb c) (regs (vs st)) vm i = true.
Definition fcmp_raised (st : fstate) (o : fcmp) (vs2 : Z) (s1 : fsrc) (i : Z) : Z :=
  let c := cfg (vs st) in
  fcmp_flag o (ffmt (8 * sew c)) (elem (vlenb c) (regs (vs st)) vs2 (sew c) i) (fsrc_elem (vlenb c) (regs (vs st)) (fpr st) (sew c) s1 i).

(** vmfeq, vmfne, vmflt, vmfle, vmfgt, vmfge, .vv and .vf: bit i of vd for every active element is the
    comparison of the operand elements before the instruction; NaNs are unordered, the zeros equal; all other
    bits and registers are unchanged.  Missing: the invalid flag (refuted below), scalars that are not
    boxed. *)
Theorem vector_fcompare_partial : forall st o vd vs2 s1 vm, fcmp_ready st vs2 s1 ->
  let c := cfg (vs st) in
  exists st', exec_fcmp st o vd vs2 s1 vm = Some st' /\
    mask_update (vlenb c) vd (fcmp_active st vm)
      (fun i => fcmp_res o (ffmt (8 * sew c)) (elem (vlenb c) (regs (vs st)) vs2 (sew c) i) (fsrc_elem (vlenb c) (regs (vs st)) (fpr st) (sew c) s1 i))
      (regs (vs st)) (regs (vs st')) /\
    cfg (vs st') = set_vstart c 0 /\ fpr st' = fpr st /\ frm st' = frm st /\
    ((forall i, fcmp_active st vm i -> fcmp_raised st o vs2 s1 i = 0) -> flags_of (fcmp_active st vm) (fcmp_raised st o vs2 s1) (fflags st) (fflags st')).
Proof.
  intros st o vd vs2 s1 vm (HC & HS & H2 & H1 & Hb & Hx & Hst) c. fold c in HC, HS, H2, H1, Hx, Hst. unfold exec_fcmp. fold c.
  assert (SW : sew c = 4 \/ sew c = 8) by (clear - HS; cbn [In] in HS; lia).
  assert (existsb (Z.eqb (sew c)) [4; 8] = true) as -> by (clear - SW; destruct SW as [-> | ->]; reflexivity).
  destruct (mask_binary_spec true (vs st) (fun x y m => if m then fcmp_op o (ctype (8 * sew c)) x y else false) vd vs2 (operand1 (fpr st) Vfadd s1) vm true HC H2
    ltac:(destruct s1; [exact H1 | exact I]) Hb Hx Hst (fun _ => eq_refl)) as (st' & E & Hc & M1 & M2 & M3 & M4). fold c in E, Hc, M1, M2, M3, M4.
  rewrite E. cbn [obind]. eexists. split; [reflexivity |]. cbn [with_vs vs fpr frm fflags].
  split; [| split; [exact Hc |]; split; [reflexivity |]; split; [reflexivity |]].
  - split; [|split; [|split; [exact M3|exact M4]]]; unfold fcmp_active; fold c.
    + intros i Hi (Hr & Hm). rewrite M1 by (first [assumption | split; [lia|intros _; exact Hm]]). cbn [andb]. rewrite Hm, fcmp_ok, ctype_ffmt. f_equal.
      destruct s1 as [r | r]; [reflexivity |]. cbn [operand1 src1_elem fsrc_elem]. destruct H1 as [R B]. unfold unbox. rewrite B. unfold wrap.
      clear - SW. destruct SW as [-> | ->]; reflexivity.
    + intros i Hi Hn. apply M2; [exact Hi|]. intros (Hr & Hm). apply Hn. split; [exact Hr|exact (Hm eq_refl)].
  - intros N k Hk. split; [auto | intros [T | (j & J & T)]; [exact T |]]. rewrite (N j J), Z.bits_0 in T. discriminate T.
Qed.
Print Assumptions vector_fcompare_partial.
(** vmfle.vf v3, v2, f1 at SEW = 32, vl = 4: -0.0, NaN, 1.5, -infinity against +0.0. *)
Definition cmp_state : fstate := fdemo (two 0xff8000003fc000007fc0000080000000 0) 4 4 (fun _ => 0xffffffff00000000) 0.
Example vector_fcompare_case : fcmp_ready cmp_state 2 (FS 1) /\
  option_map (fun s => map (vbit 16 (regs (vs s)) 3) (zrange 4)) (exec_fcmp cmp_state Fle 3 2 (FS 1) true) = Some [true; false; false; true].
Proof.
  split; [| vm_compute; reflexivity]. unfold fcmp_ready, cmp_state. cbn [fdemo cfg vs regs vlenb sew lmul8 vl vexc vstart fpr].
  split; [apply demo_config; cbn; lia |]. split; [cbn; auto |]. split; [unfold group, nregs, emul8; cbn; lia |]. split; [split; [lia | reflexivity] |]. split; [apply of_regs_bytes |]. split; [reflexivity | lia].
Qed.

(** A compare with a NaN does not record the invalid flag: vmflt.vf with a quiet NaN element. *)
Theorem vector_fcompare_flags_refuted : exists st o vd vs2 s1 vm st', fcmp_ready st vs2 s1 /\ exec_fcmp st o vd vs2 s1 vm = Some st' /\
  ~ flags_of (fcmp_active st vm) (fcmp_raised st o vs2 s1) (fflags st) (fflags st').
Proof.
  exists cmp_state, Flt, 3, 2, (FS 1), true. destruct (vector_fcompare_partial cmp_state Flt 3 2 (FS 1) true (proj1 vector_fcompare_case)) as (st' & E & _).
  exists st'. split; [exact (proj1 vector_fcompare_case) |]. split; [exact E |].
  assert (F : option_map fflags (exec_fcmp cmp_state Flt 3 2 (FS 1) true) = Some 0) by (vm_compute; reflexivity). rewrite E in F. injection F as F.
  intros K. specialize (K 4 ltac:(lia)). rewrite F in K. assert (T : Z.testbit 0 4 = true); [| discriminate T]. apply K. right. exists 1.
  split; [split; [cbn; lia | reflexivity] | vm_compute; reflexivity].
Qed.
Print Assumptions vector_fcompare_flags_refuted.

(** * C85 *)

Definition fred_ready (st : fstate) (o : fred) (vs2 : Z) : Prop :=
  let c := cfg (vs st) in
  fred_legal (vlenb c) (sew c) (lmul8 c) (vl c) o vs2 /\ byte_mem (regs (vs st)) /\ vexc c = false /\ vstart c = 0 /\ 0 <= frm st <= 4.
Definition fred_done (st : fstate) (o : fred) (vd vs2 vs1 : Z) (vm : bool) (st' : fstate) : Prop :=
  let c := cfg (vs st) in
  freduction (vlenb c) (sew c) (frm st) (vl c) o vd vs2 vs1 vm (regs (vs st)) (regs (vs st')) (fflags st) (fflags st') /\
  cfg (vs st') = set_vstart c 0 /\ fpr st' = fpr st /\ frm st' = frm st.

(** vfredosum, vfredusum, vfredmin, vfredmax, vfwredusum: vd[0] is the scalar vs1[0] combined in order with
    the active elements of vs2, each step rounded; the flags accumulate; nothing else changes.  Missing: vl = 0,
    RMM, signaling NaNs and zeros of both signs for minimum and maximum, LMUL = 8 when widening (refuted
    below); NaN results other than the canonical one; vstart > 0. *)
Theorem vector_freduce_partial : forall H st o vd vs2 vs1 vm, let c := cfg (vs st) in
  host_ok H -> host_quiet_double H -> host_quiet_sum H -> fred_ready st o vs2 -> 0 < vl c -> frm st <= 3 -> (fwidening o = true -> lmul8 c <= 32) ->
  fred_safe o (8 * sew c) (elem (vlenb c) (regs (vs st)) vs1 (if fwidening o then 2 * sew c else sew c) 0) (active_elems (vlenb c) (regs (vs st)) vs2 (sew c) vm (vl c)) ->
  exists st', exec_fred H st o vd vs2 vs1 vm = Some st' /\ fred_done st o vd vs2 vs1 vm st'.
Proof.
  intros H st o vd vs2 vs1 vm c HO HQ HQ2 (HL & Hb & Hx & Hs & Hf) Hvl Hrm Hw Safe.
  destruct (exec_fred_spec H st o vd vs2 vs1 vm HO HQ HQ2 HL Hw Hb Hx Hs ltac:(clear - Hf Hrm; lia) Safe) as (st' & E & L & F & A & C1 & C2 & C3).
  exists st'. split; [exact E |]. split; [| repeat split; assumption]. split; [fold c; intros V; exfalso; clear - V Hvl; lia |]. split; [intros _; split; assumption | exact A].
Qed.
Print Assumptions vector_freduce_partial.

Example ieee_host_quiet_sum : host_quiet_sum ieee_host.
Proof. intros f rm a b Hf _ Ha Hb. apply canonical_quiet; [exact Hf |]. apply add_canonical; try assumption. apply sd_ok2. exact Hf. Qed.
(** vfredosum.vs v8, v2, v4 at SEW = 32: 1.0, then 2^-24 four times, rounded each time; towards +infinity. *)
Example vector_freduce_case : let st := fdemo (two 0x33800000338000003380000033800000 0x3f800000) 4 4 no_f 3 in
  host_ok ieee_host /\ fred_ready st Rosum 2 /\
  option_map (fun s => (elem 16 (regs (vs s)) 8 4 0, fflags s)) (exec_fred ieee_host st Rosum 8 2 4 true) = Some (0x3f800004, fNX).
Proof.
  intros st. split; [exact ieee_host_is_ok |]. split; [| vm_compute; reflexivity]. unfold fred_ready, fred_legal, st. cbn [fdemo cfg vs regs vlenb sew lmul8 vl vexc vstart frm fpr].
  split; [split; [apply demo_config; cbn; lia |]; split; [cbn; auto |]; unfold group, nregs, emul8; cbn; lia |]. split; [apply of_regs_bytes |]. split; [reflexivity |]. lia.
Qed.

(** ** Refutations *)
Definition fred_deviates (H : host) (st : fstate) (o : fred) (vd vs2 vs1 : Z) (vm : bool) : Prop :=
  fred_ready st o vs2 /\ exists st', exec_fred H st o vd vs2 vs1 vm = Some st' /\ ~ fred_done st o vd vs2 vs1 vm st'.
Ltac red_ready :=
  unfold fred_ready, fred_legal; cbn [fdemo cfg vs regs vlenb sew lmul8 vl vexc vstart frm fpr];
  split; [split; [apply demo_config; cbn; lia |]; split; [cbn; auto |]; unfold group, nregs, emul8; cbn; lia |]; split; [apply of_regs_bytes |]; split; [reflexivity |]; lia.
(** With vl > 0: the specified result is (r, fl), a number, but the instruction gives (r', fl'). *)
Lemma red_deviates : forall H g sew vl mode o vd vs2 vs1 r fl r' fl', let st := fdemo g sew vl no_f mode in
  fred_ready st o vs2 -> 0 < vl ->
  fred_fold o (8 * sew) mode (elem 16 (of_regs g) vs1 (if fwidening o then 2 * sew else sew) 0) (active_elems 16 (of_regs g) vs2 sew true vl) = (r, fl) ->
  is_nan (fred_fmt o (8 * sew)) r = false ->
  option_map (fun s => (elem 16 (regs (vs s)) vd (if fwidening o then 2 * sew else sew) 0, fflags s)) (exec_fred H st o vd vs2 vs1 true) = Some (r', fl') ->
  r <> r' \/ fl <> fl' -> fred_deviates H st o vd vs2 vs1 true.
Proof.
  intros H g sw n mode o vd vs2 vs1 r fl r' fl' st RD Hvl FO NN OB D. split; [exact RD |]. destruct (exec_fred H st o vd vs2 vs1 true) as [st' |]; [| discriminate OB].
  cbn [option_map] in OB. apply (f_equal (fun t => match t with Some t => t | None => (0, 0) end)) in OB. apply pair_equal_spec in OB. destruct OB as [O1 O2].
  exists st'. split; [reflexivity |]. intros ((_ & K & _) & _). unfold st in K. cbn [fdemo cfg vs regs vlenb sew lmul8 vl vexc vstart frm fpr fflags] in K.
  destruct (K Hvl) as [(_ & _ & K1) K2]. rewrite FO in K1, K2. cbn [fst snd] in *. rewrite NN, O1 in K1. rewrite O2, Z.lor_0_l in K2. destruct D as [D | D]; apply D; congruence.
Qed.

(** vfredmin with a signaling NaN: the minimum of the other operands and the invalid flag are specified; the
    simulator gives the canonical NaN and no flag. *)
Theorem vector_freduce_snan_refuted : exists st o vd vs2 vs1 vm, fred_deviates ieee_host st o vd vs2 vs1 vm.
Proof.
  exists (fdemo (two 0x7f800001 0x3f800000) 4 1 no_f 0), Rfmin, 8, 2, 4, true. apply (red_deviates _ _ _ _ _ _ _ _ _ 0x3f800000 16 0x7fc00000 0); [red_ready | lia | | | | left; discriminate]; vm_compute; reflexivity.
Qed.
Print Assumptions vector_freduce_snan_refuted.
(** vfredmax of -0.0 and +0.0 gives -0.0. *)
Theorem vector_freduce_zeros_refuted : exists st o vd vs2 vs1 vm, fred_deviates ieee_host st o vd vs2 vs1 vm /\
  fred_fold o (8 * sew (cfg (vs st))) (frm st) (elem (vlenb (cfg (vs st))) (regs (vs st)) vs1 4 0) (active_elems (vlenb (cfg (vs st))) (regs (vs st)) vs2 4 vm (vl (cfg (vs st)))) = (0, 0).
Proof.
  exists (fdemo (two 0 0x80000000) 4 1 no_f 0), Rfmax, 8, 2, 4, true. split; [| vm_compute; reflexivity].
  apply (red_deviates _ _ _ _ _ _ _ _ _ 0 0 0x80000000 0); [red_ready | lia | | | | left; discriminate]; vm_compute; reflexivity.
Qed.
Print Assumptions vector_freduce_zeros_refuted.
(** RMM: the sum is rounded to even. *)
Theorem vector_freduce_rmm_refuted : exists st o vd vs2 vs1 vm, frm st = 4 /\ fred_deviates ieee_host st o vd vs2 vs1 vm.
Proof.
  exists (fdemo (two 0x33800000 0x3f800000) 4 1 no_f 4), Rosum, 8, 2, 4, true. split; [reflexivity |].
  apply (red_deviates _ _ _ _ _ _ _ _ _ 0x3f800001 1 0x3f800000 1); [red_ready | lia | | | | left; discriminate]; vm_compute; reflexivity.
Qed.
Print Assumptions vector_freduce_rmm_refuted.
(** vl = 0: vd[0] is overwritten with vs1[0]. *)
Theorem vector_freduce_vl0_refuted : exists st o vd vs2 vs1 vm, vl (cfg (vs st)) = 0 /\ fred_deviates ieee_host st o vd vs2 vs1 vm.
Proof.
  set (st := fdemo (two 0 0x3f800000) 4 0 no_f 0). exists st, Rosum, 8, 2, 4, true. split; [reflexivity |]. split; [unfold st; red_ready |].
  assert (O : option_map (fun s => regs (vs s) 131) (exec_fred ieee_host st Rosum 8 2 4 true) = Some 0x3f) by (vm_compute; reflexivity).
  destruct (exec_fred ieee_host st Rosum 8 2 4 true) as [st' |]; [| discriminate O]. injection O as O. exists st'. split; [reflexivity |]. intros ((K & _) & _).
  destruct (K eq_refl) as [_ K']. specialize (K' 131). rewrite O in K'. vm_compute in K'. discriminate K'.
Qed.
Print Assumptions vector_freduce_vl0_refuted.
(** vfwredusum at LMUL = 8: legal, but the exception is raised. *)
Theorem vector_freduce_lmul8_refuted : exists st o vd vs2 vs1 vm, fred_deviates ieee_host st o vd vs2 vs1 vm /\
  option_map (fun s => vexc (cfg (vs s))) (exec_fred ieee_host st o vd vs2 vs1 vm) = Some true.
Proof.
  set (st := {| vs := {| regs := of_regs (two 0 0);
              cfg := {| vlenb := 16; vtype := 0; vl := 1; vlmax := 32; lmul8 := 64; sew := 4;
                        vta := false; vma := false; vstart := 0; vxsat := false; vxrm := 0; vexc := false; stored := fun _ => 0 |} |};
     fpr := no_f; frm := 0; fflags := 0 |}). exists st, Rwusum, 8, 16, 4, true.
  assert (O : option_map (fun s => vexc (cfg (vs s))) (exec_fred ieee_host st Rwusum 8 16 4 true) = Some true) by (vm_compute; reflexivity).
  split; [split |].
  - unfold fred_ready, fred_legal, st. cbn [cfg vs regs vlenb sew lmul8 vl vexc vstart frm fpr].
    split; [split; [apply demo_config; cbn; lia |]; split; [cbn; auto |]; unfold group, nregs, emul8; cbn; lia |]. split; [apply of_regs_bytes |]. split; [reflexivity |]. lia.
  - destruct (exec_fred ieee_host st Rwusum 8 16 4 true) as [st' |]; [| discriminate O]. injection O as O. exists st'. split; [reflexivity |]. intros (_ & K & _).
    rewrite K in O. discriminate O.
  - exact O.
Qed.
Print Assumptions vector_freduce_lmul8_refuted.

(** * C86 *)

(** vfmv.f.s: element 0 of vs2, at any vl and vstart, NaN-boxed, is written to fd; nothing else changes. *)
Theorem vector_fmove_to_f : forall st fd vs2, let c := cfg (vs st) in
  config (vlenb c) (sew c) (lmul8 c) (vl c) -> In (sew c) [4; 8] -> byte_mem (regs (vs st)) ->
  exists st', exec_vfmv_fs st fd vs2 = Some st' /\ fpr st' fd = box (ffmt (8 * sew c)) (elem (vlenb c) (regs (vs st)) vs2 (sew c) 0) /\
    (forall r, r <> fd -> fpr st' r = fpr st r) /\ regs (vs st') = regs (vs st) /\ cfg (vs st') = set_vstart c 0 /\ frm st' = frm st /\ fflags st' = fflags st.
Proof.
  intros st fd vs2 c HC HS Hb. unfold exec_vfmv_fs. fold c. assert (SW : sew c = 4 \/ sew c = 8) by (clear - HS; cbn [In] in HS; lia).
  assert (existsb (Z.eqb (sew c)) [4; 8] = true) as -> by (clear - SW; destruct SW as [-> | ->]; reflexivity).
  destruct (config_vb _ _ _ _ HC) as (q & Hq & Hvb). assert (Hin : In (sew c) [1; 2; 4; 8]) by (clear - SW; destruct SW as [-> | ->]; cbn; auto).
  pose proof (epv_spec q (sew c) Hin Hq) as (_ & He1). rewrite <- Hvb in He1. rewrite read_elem0 by exact He1. cbn [obind].
  pose proof (elem_inw (vlenb c) (regs (vs st)) vs2 (sew c) 0 Hb ltac:(clear - SW; lia)) as R. generalize dependent (elem (vlenb c) (regs (vs st)) vs2 (sew c) 0). intros v R.
  eexists. split; [reflexivity |]. cbn [vs regs cfg fpr frm fflags]. rewrite Z.eqb_refl. split; [| split; [intros r N; destruct (Z.eqb_spec r fd); [contradiction | reflexivity] | repeat split]].
  clear - SW R. revert R. destruct SW as [-> | ->]; intros R.
  - cbn [Z.eqb Pos.eqb]. change (Z.lor (Z.shiftl 0xffffffff 32) v = 0xffffffff * 2 ^ 32 + v). apply lor_disjoint_add. exact R.
  - change (v = (2 ^ 0 - 1) * 2 ^ 64 + v). lia.
Qed.
Print Assumptions vector_fmove_to_f.
Example vector_fmove_to_f_case : let st := fdemo (two 0x3f800000 0) 4 0 no_f 0 in config 16 4 8 0 /\ option_map (fun s => fpr s 3) (exec_vfmv_fs st 3 2) = Some 0xffffffff3f800000.
Proof. split; [apply demo_config; cbn; lia | vm_compute; reflexivity]. Qed.

(** A scalar source holding a boxed value. *)
Definition fscalar (st : fstate) (r : Z) : Prop :=
  In (sew (cfg (vs st))) [4; 8] /\ 0 <= fpr st r < 2 ^ 64 /\ boxed (ffmt (8 * sew (cfg (vs st)))) (fpr st r) = true.
Lemma scalar_value : forall st r, fscalar st r -> wrap (8 * sew (cfg (vs st))) (fpr st r) = unbox (ffmt (8 * sew (cfg (vs st)))) (fpr st r).
Proof.
  intros st r (HS & R & B). unfold unbox. rewrite B. unfold wrap. assert (SW : sew (cfg (vs st)) = 4 \/ sew (cfg (vs st)) = 8) by (clear - HS; cbn [In] in HS; lia).
  clear - SW. destruct SW as [-> | ->]; reflexivity.
Qed.
Definition fmove_rest (st st' : fstate) : Prop := cfg (vs st') = set_vstart (cfg (vs st)) 0 /\ fpr st' = fpr st /\ frm st' = frm st /\ fflags st' = fflags st.

(** vfmv.v.f: the vl elements of vd get the scalar, nothing else changes.  Missing: bodies longer than one
    register, vstart > 0, scalars that are not boxed (refuted below). *)
Theorem vector_fsplat_partial : forall st vd fs1, let c := cfg (vs st) in
  config (vlenb c) (sew c) (lmul8 c) (vl c) -> fscalar st fs1 -> vstart c = 0 -> vl c * sew c <= vlenb c ->
  exists st', exec_vfmv_vf st vd fs1 = Some st' /\
    fsplat (vlenb c) (sew c) (vstart c) (vl c) vd (unbox (ffmt (8 * sew c)) (fpr st fs1)) (regs (vs st)) (regs (vs st')) /\ fmove_rest st st'.
Proof.
  intros st vd fs1 c HC FS V0 Hn. unfold exec_vfmv_vf. fold c. rewrite V0. change (0 <? 0) with false. cbv iota. pose proof (vl_bits _ _ _ _ HC) as (Hvl & Hvb8).
  assert (C0 : set_vstart c 0 = c) by (unfold set_vstart; rewrite <- V0; destruct c; reflexivity).
  assert (SW : sew c = 4 \/ sew c = 8) by (destruct FS as (HS & _); fold c in HS; clear - HS; cbn [In] in HS; lia).
  destruct (Z.eqb_spec (vl c) 0) as [E0 | N0].
  - exists st. split; [reflexivity |]. split; [| unfold fmove_rest; fold c; rewrite C0; repeat split]. split; [intros j Hj; lia | reflexivity].
  - assert (existsb (Z.eqb (sew c)) [4; 8] = true) as -> by (clear - SW; destruct SW as [-> | ->]; reflexivity).
    pose proof (scalar_value st fs1 FS) as SV. fold c in SV. rewrite SV. set (v := unbox (ffmt (8 * sew c)) (fpr st fs1)) in *.
    destruct (fill_spec (vlenb c) (sew c) v ltac:(clear - SW; lia) (Z.to_nat (vl c)) 0 (vl c) (copy_reg (vlenb c) (regs (vs st)) vd) ltac:(clear - Hvl; lia) ltac:(lia) (fun _ => Hn)) as (buf & E & F1 & F2).
    rewrite E. cbn [obind]. eexists. split; [reflexivity |]. split; [| repeat split]. cbn [with_vs vs regs]. split.
    + intros j Hj. unfold elem. assert (WV : wrap (8 * sew c) v = v) by (rewrite <- SV; apply wrap_wrap; clear - SW; lia). rewrite <- WV, <- (F1 j Hj).
      apply load_le_shift. intros k Hk. unfold submit. clear - Hj Hk Hn SW.
      assert (0 <= j * sew c + k < vlenb c) by nia. replace (vd * vlenb c + j * sew c + k) with (vd * vlenb c + (j * sew c + k)) by lia. generalize dependent (j * sew c + k). intros t Ht.
      destruct (Z.leb_spec (vd * vlenb c) (vd * vlenb c + t)), (Z.ltb_spec (vd * vlenb c + t) ((vd + 1) * vlenb c)); try lia. cbn [andb]. f_equal. lia.
    + intros a Ha. unfold submit. destruct (Z.leb_spec (vd * vlenb c) a), (Z.ltb_spec a ((vd + 1) * vlenb c)); try reflexivity. cbn [andb].
      rewrite F2; [unfold copy_reg; f_equal; lia |]. intros B. assert (S0 : 0 < sew c) by (clear - SW; lia).
      apply (Ha ((a - vd * vlenb c) / sew c)).
      * split; [apply Z.div_pos; [clear - H; lia | exact S0] | apply Z.div_lt_upper_bound; [exact S0 | clear - B; lia]].
      * unfold in_elem. pose proof (Z.div_mod (a - vd * vlenb c) (sew c) ltac:(clear - S0; lia)) as D. pose proof (Z.mod_pos_bound (a - vd * vlenb c) (sew c) S0) as M.
        clear - D M. generalize dependent ((a - vd * vlenb c) mod sew c). intros m D M. generalize dependent ((a - vd * vlenb c) / sew c). intros q D. nia.
Qed.
Print Assumptions vector_fsplat_partial.
Example vector_fsplat_case : let st := fdemo (two 0 0) 4 3 (fun _ => 0xffffffff3f800000) 0 in fscalar st 5 /\
  option_map (fun s => map (elem 16 (regs (vs s)) 8 4) (zrange 4)) (exec_vfmv_vf st 8 5) = Some [0x3f800000; 0x3f800000; 0x3f800000; 0].
Proof. split; [split; [cbn; auto |]; split; [cbn; lia | reflexivity] | vm_compute; reflexivity]. Qed.

(** vfmv.s.f: element 0 of vd gets the scalar, nothing else changes.  Missing: vstart > 0, scalars that are
    not boxed (refuted below). *)
Theorem vector_fset0_partial : forall st vd fs1, let c := cfg (vs st) in
  config (vlenb c) (sew c) (lmul8 c) (vl c) -> fscalar st fs1 -> vstart c = 0 ->
  exists st', exec_vfmv_sf st vd fs1 = Some st' /\
    fset0 (vlenb c) (sew c) (vstart c) (vl c) vd (unbox (ffmt (8 * sew c)) (fpr st fs1)) (regs (vs st)) (regs (vs st')) /\ fmove_rest st st'.
Proof.
  intros st vd fs1 c HC FS V0. unfold exec_vfmv_sf. fold c. rewrite V0. change (0 <? 0) with false. cbv iota. pose proof (vl_bits _ _ _ _ HC) as (Hvl & Hvb8).
  assert (C0 : set_vstart c 0 = c) by (unfold set_vstart; rewrite <- V0; destruct c; reflexivity).
  assert (SW : sew c = 4 \/ sew c = 8) by (destruct FS as (HS & _); fold c in HS; clear - HS; cbn [In] in HS; lia).
  destruct (Z.eqb_spec (vl c) 0) as [E0 | N0].
  - exists st. split; [reflexivity |]. split; [| unfold fmove_rest; fold c; rewrite C0; repeat split]. split; [intros j; lia | reflexivity].
  - assert (existsb (Z.eqb (sew c)) [4; 8] = true) as -> by (clear - SW; destruct SW as [-> | ->]; reflexivity).
    pose proof (scalar_value st fs1 FS) as SV. fold c in SV.
    destruct (submit_store0 (vlenb c) (regs (vs st)) vd (sew c) (wrap (8 * sew c) (fpr st fs1))) as (S1 & S2); [clear - SW Hvb8; lia|].
    eexists. split; [reflexivity |]. split; [| repeat split]. cbn [with_vs vs regs]. split.
    + intros _. rewrite S1, <- SV. apply wrap_wrap. clear - SW. lia.
    + intros a [A | A]; [clear - A Hvl N0; lia |]. apply S2. exact A.
Qed.
Print Assumptions vector_fset0_partial.
Example vector_fset0_case : let st := fdemo (two 0 0) 8 2 (fun _ => 0x3ff0000000000000) 0 in fscalar st 5 /\
  option_map (fun s => map (elem 16 (regs (vs s)) 8 8) (zrange 2)) (exec_vfmv_sf st 8 5) = Some [0x3ff0000000000000; 0].
Proof. split; [split; [cbn; auto |]; split; [cbn; lia | reflexivity] | vm_compute; reflexivity]. Qed.

(** vfmv.v.f at LMUL = 2 with vl = 5, SEW = 32, VLEN = 128: the code writes beyond its 16-byte buffer. *)
Theorem vector_fsplat_group_refuted : exists st vd fs1, let c := cfg (vs st) in
  config (vlenb c) (sew c) (lmul8 c) (vl c) /\ group (sew c) (lmul8 c) (sew c) vd /\ fscalar st fs1 /\ vstart c = 0 /\ exec_vfmv_vf st vd fs1 = None.
Proof.
  exists {| vs := {| regs := of_regs (two 0 0);
              cfg := {| vlenb := 16; vtype := 0; vl := 5; vlmax := 8; lmul8 := 16; sew := 4;
                        vta := false; vma := false; vstart := 0; vxsat := false; vxrm := 0; vexc := false; stored := fun _ => 0 |} |};
     fpr := (fun _ => 0xffffffff3f800000); frm := 0; fflags := 0 |}, 8, 5. cbv zeta. cbn [cfg vs regs vlenb sew lmul8 vl vexc vstart frm fpr].
  split; [apply demo_config; cbn; lia |]. split; [unfold group, nregs, emul8; cbn; lia |]. split; [split; [cbn; auto |]; split; [cbn; lia | reflexivity] |]. split; [reflexivity |]. vm_compute. reflexivity.
Qed.
Print Assumptions vector_fsplat_group_refuted.
(** vfmv.v.f and vfmv.s.f of a value that is not boxed copy its low bits instead of the canonical NaN. *)
Theorem vector_fmove_box_refuted : exists st vd fs1, let c := cfg (vs st) in
  config (vlenb c) (sew c) (lmul8 c) (vl c) /\ In (sew c) [4; 8] /\ vstart c = 0 /\ vl c = 1 /\ unbox (ffmt (8 * sew c)) (fpr st fs1) = 0x7fc00000 /\
  option_map (fun s => elem (vlenb c) (regs (vs s)) vd (sew c) 0) (exec_vfmv_vf st vd fs1) = Some 0x3f800000 /\
  option_map (fun s => elem (vlenb c) (regs (vs s)) vd (sew c) 0) (exec_vfmv_sf st vd fs1) = Some 0x3f800000.
Proof.
  exists (fdemo (two 0 0) 4 1 (fun _ => 0x3f800000) 0), 8, 5. cbv zeta. cbn [fdemo cfg vs regs vlenb sew lmul8 vl vexc vstart frm fpr].
  split; [apply demo_config; cbn; lia |]. split; [cbn; auto |]. split; [reflexivity |]. split; [reflexivity |]. split; [reflexivity |]. split; vm_compute; reflexivity.
Qed.
Print Assumptions vector_fmove_box_refuted.
(** With vstart > 0, vfmv.v.f writes none of the elements from vstart to vl, and neither move clears vstart. *)
Theorem vector_fmove_vstart_refuted : exists st vd fs1, let c := cfg (vs st) in
  config (vlenb c) (sew c) (lmul8 c) (vl c) /\ fscalar st fs1 /\ 0 < vstart c < vl c /\ vl c * sew c <= vlenb c /\
  option_map (fun s => (elem (vlenb c) (regs (vs s)) vd (sew c) (vstart c), vstart (cfg (vs s)))) (exec_vfmv_vf st vd fs1) = Some (0, 1) /\
  unbox (ffmt (8 * sew c)) (fpr st fs1) = 0x3f800000 /\
  option_map (fun s => vstart (cfg (vs s))) (exec_vfmv_sf st vd fs1) = Some 1.
Proof.
  exists {| vs := {| regs := of_regs (two 0 0);
              cfg := {| vlenb := 16; vtype := 0; vl := 2; vlmax := 4; lmul8 := 8; sew := 4;
                        vta := false; vma := false; vstart := 1; vxsat := false; vxrm := 0; vexc := false; stored := fun _ => 0 |} |};
     fpr := (fun _ => 0xffffffff3f800000); frm := 0; fflags := 0 |}, 8, 5. cbv zeta. cbn [cfg vs regs vlenb sew lmul8 vl vexc vstart frm fpr].
  split; [apply demo_config; cbn; lia |]. split; [split; [cbn; auto |]; split; [cbn; lia | reflexivity] |]. split; [lia |]. split; [lia |]. split; [vm_compute; reflexivity |]. split; vm_compute; reflexivity.
Qed.
Print Assumptions vector_fmove_vstart_refuted.

(** * C83 *)

(** At a SEW with no supported format compares, reductions and moves raise the exception and change nothing;
    reductions do so also with a reserved rounding mode.  Missing: vfmv.v.f and vfmv.s.f with vstart > 0 or
    vl = 0, which do nothing. *)
Theorem vector_fp_other_illegal_partial : forall H st,
  (forall o vd vs2 s1 vm, ~ In (sew (cfg (vs st))) [4; 8] -> exists st', exec_fcmp st o vd vs2 s1 vm = Some st' /\ only_raises st st') /\
  (forall o vd vs2 vs1 vm, ~ 0 <= frm st <= 4 \/ ~ In (sew (cfg (vs st))) (fred_sews o) -> exists st', exec_fred H st o vd vs2 vs1 vm = Some st' /\ only_raises st st') /\
  (~ In (sew (cfg (vs st))) [4; 8] -> (forall fd vs2, exists st', exec_vfmv_fs st fd vs2 = Some st' /\ only_raises st st') /\
     (vstart (cfg (vs st)) = 0 -> 0 < vl (cfg (vs st)) -> forall vd fs1, exists st1 st2,
        exec_vfmv_vf st vd fs1 = Some st1 /\ only_raises st st1 /\ exec_vfmv_sf st vd fs1 = Some st2 /\ only_raises st st2)).
Proof.
  intros H st. assert (O : only_raises st (fraise st)) by (repeat split; reflexivity).
  assert (NI : ~ In (sew (cfg (vs st))) [4; 8] -> existsb (Z.eqb (sew (cfg (vs st)))) [4; 8] = false).
  { intros N. cbn [existsb In] in *. destruct (Z.eqb_spec (sew (cfg (vs st))) 4), (Z.eqb_spec (sew (cfg (vs st))) 8); cbn; lia. }
  split; [| split].
  - intros o vd vs2 s1 vm N. exists (fraise st). split; [| exact O]. unfold exec_fcmp. cbv zeta. rewrite (NI N). reflexivity.
  - intros o vd vs2 vs1 vm D. exists (fraise st). split; [| exact O]. unfold exec_fred. cbv zeta. destruct (negb (rounding_mode_valid (frm st))) eqn:E; [reflexivity |].
    assert (S : fred_sizes o (sew (cfg (vs st))) = None); [| rewrite S; reflexivity]. destruct D as [F | N].
    + exfalso. unfold rounding_mode_valid in E. apply negb_false_iff, andb_true_iff in E. destruct E as [E1 E2]. apply F. clear - E1 E2. lia.
    + unfold fred_sews in N. unfold fred_sizes. destruct (fwidening o); cbn [In] in N; destruct (Z.eqb_spec (sew (cfg (vs st))) 4), (Z.eqb_spec (sew (cfg (vs st))) 8); try reflexivity; exfalso; lia.
  - intros N. split; [intros fd vs2; exists (fraise st); split; [unfold exec_vfmv_fs; cbv zeta; rewrite (NI N); reflexivity | exact O] |].
    intros V0 V1 vd fs1. exists (fraise st), (fraise st). unfold exec_vfmv_vf, exec_vfmv_sf. cbv zeta. rewrite (NI N), V0. change (0 <? 0) with false. cbv iota.
    destruct (Z.eqb_spec (vl (cfg (vs st))) 0); [exfalso; lia |]. repeat split; reflexivity.
Qed.
Print Assumptions vector_fp_other_illegal_partial.
Example vector_fp_other_illegal_case : option_map (fun s => vexc (cfg (vs s))) (exec_fcmp (fdemo (two 0 0) 2 1 no_f 0) Feq 3 2 (FV 4) true) = Some true /\
  option_map (fun s => vexc (cfg (vs s))) (exec_fred ieee_host (fdemo (two 0 0) 4 1 no_f 5) Rosum 3 2 4 true) = Some true /\
  option_map (fun s => vexc (cfg (vs s))) (exec_vfmv_vf (fdemo (two 0 0) 1 1 no_f 0) 3 2) = Some true.
Proof. split; [| split]; vm_compute; reflexivity. Qed.
