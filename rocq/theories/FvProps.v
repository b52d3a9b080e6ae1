(** Element-wise vector floating-point instructions: arithmetic (C79), comparisons of sign and magnitude,
    sign injection, classification, merge (C80), conversions (C81), estimates (C82), legality (C83). *)
From Coq Require Import ZArith Bool List Lia.
From Verif Require Import Bits Memory IeeeSpec FpSpec FarithSpec FpProofs FarithProofs FarithExec FarithProps VelemSpec VcfgModel VelemModel VelemProps FvSpec FvModel FvLoop FvElem FvMain.
Import ListNotations.
Local Open Scope Z_scope.

(** * Hosts, instructions and states for the examples *)

Lemma canonical_quiet : forall f x, f = single \/ f = double -> canonical f x -> is_snan f x = false.
Proof.
  intros f x Hf [[_ N] | ->]; [unfold is_snan; rewrite N; reflexivity |]. destruct Hf as [-> | ->]; reflexivity.
Qed.
Lemma wide_quiet : forall rm a b, is_snan double (fst (ieee_cvt single double rm a)) = false /\ is_snan double (fst (ieee_mul double rm a b)) = false.
Proof.
  intros rm a b. split; apply canonical_quiet; try (right; reflexivity); [| apply mul_canonical, sd_ok2; right; reflexivity].
  destruct (is_nan single a) eqn:N; [right; unfold ieee_cvt; rewrite N; reflexivity | left].
  apply cvt_number; [apply sd_ok2; left; reflexivity | apply sd_ok2; right; reflexivity | exact N].
Qed.
Lemma nan_sign_quiet : forall r, canonical double (fst r) -> is_snan double (fst (nan_sign double r)) = false.
Proof.
  intros r C. assert (D : okf double) by (apply sd_ok2; right; reflexivity). pose proof (canonical_quiet double _ (or_intror eq_refl) C) as Q. unfold nan_sign. destruct (is_nan double (fst r)) eqn:E; [| exact Q].
  assert (R : 0 <= fst r < 2 ^ width double) by (apply canonical_range; [apply sd_formats; right; reflexivity | exact C]).
  destruct (flip_facts double (fst r) D R) as (_ & _ & _ & _ & _ & F & _). cbn [fst]. rewrite F. exact Q.
Qed.
Example ieee_host_quiet_double : host_quiet_double ieee_host.
Proof. intros rm a b _. destruct (wide_quiet rm a b). split; intros; assumption. Qed.
Example x86_host_quiet_double : host_quiet_double x86_host.
Proof.
  intros rm a b _. split; intros; cbn [x86_host h_cvt h_mul]; apply nan_sign_quiet; [| apply mul_canonical, sd_ok2; right; reflexivity].
  destruct (is_nan single a) eqn:N; [right; unfold ieee_cvt; rewrite N; reflexivity | left].
  apply cvt_number; [apply sd_ok2; left; reflexivity | apply sd_ok2; right; reflexivity | exact N].
Qed.

(** Instructions with vd = v8, vs2 = v2; v2 holds [x], v4 holds [y]. *)
Definition inst (o : fvop) (s : fsrc) (vm : bool) : fvinst := {| fi_op := o; fi_vd := 8; fi_vs2 := 2; fi_src1 := s; fi_vm := vm |}.
Definition two (x y r : Z) : Z := if r =? 2 then x else if r =? 4 then y else 0.
Definition no_f (r : Z) : Z := 0.

Ltac ready :=
  unfold fready, flegal; cbn [fdemo cfg vs regs vlenb sew lmul8 vl vexc vstart frm fpr fflags inst fi_op fi_vd fi_vs2 fi_src1 fi_vm fwidths fsews has_f1];
  split; [| split; [apply of_regs_bytes | split; [reflexivity | split; [lia | lia]]]];
  split; [apply demo_config; cbn; lia |]; split; [cbn; lia |]; unfold group, overlap_ok, nregs, emul8; cbn; repeat split; try lia; try discriminate; try (eexists; reflexivity).
Ltac deviates wd w2 w1 x y e fl :=
  apply (deviates_at_0 _ _ _ _ _ wd w2 w1 true x y 0 e fl); [ready | reflexivity | reflexivity | reflexivity | reflexivity | vm_compute; reflexivity | vm_compute; reflexivity | vm_compute; reflexivity |];
  let ra := fresh "ra" in let HR := fresh "HR" in let K := fresh "K" in intros ra HR K;
  cbn [inst fi_op fdemo cfg vs sew frm Z.mul Pos.mul] in HR.

(** * C79 *)

(** Add, subtract, multiply, divide, fused multiply-add and the widening forms, .vv and .vf: every active
    element is the IEEE result in mode frm, correctly rounded once (also the widening multiply-adds, which
    the code computes with two operations); the flags of all active elements accumulate; nothing else
    changes.  Missing: NaN results other than the canonical one, RMM, scalars that are not boxed, vfwadd.w,
    vfwsub.w (all refuted below). *)
Theorem vector_fp_arith_partial : forall H wide st I, host_ok H -> host_quiet_double H -> fready st I ->
  In (fi_op I) [Vfadd; Vfsub; Vfrsub; Vfmul; Vfdiv; Vfrdiv; Vfmadd; Vfnmadd; Vfmsub; Vfnmsub; Vfmacc; Vfnmacc; Vfmsac; Vfnmsac;
                Vfwadd; Vfwsub; Vfwmul; Vfwmacc; Vfwnmacc; Vfwmsac; Vfwnmsac] ->
  frm st <= 3 -> scalar_boxed (fpr st) (sew (cfg (vs st))) I ->
  exists st', fexec H wide st I = Some st' /\ fdone fvrel_nan st I st'.
Proof.
  intros H wide st I HO HQ RD Ho Hf SB.
  assert (K : covered (fi_op I) = true /\ fi_op I <> Vfsqrt /\ forall b x, fv_safe (fi_op I) b x) by (cbn [In] in Ho; repeat (destruct Ho as [<- | Ho]; [split; [reflexivity | split; [discriminate | intros; exact Logic.I]] |]); contradiction Ho).
  destruct K as (K1 & K2 & K3). apply fexec_correct; try assumption; [intros _; exact Hf | intros; apply K3 | intros; assumption].
Qed.
Print Assumptions vector_fp_arith_partial.

(** vfwmacc.vf, masked, three elements, the middle one inactive; vfadd.vv rounding up. *)
Example vector_fp_arith_case :
  let st := fdemo (fun r => if r =? 0 then 5 else if r =? 2 then 0x7f800000404000003fc00000 else if r =? 8 then 0x40100000000000003ff0000000000000 else 0) 4 3 (fun _ => 0xffffffff40000000) 3 in
  fready st (inst Vfwmacc (FS 7) false) /\ scalar_boxed (fpr st) 4 (inst Vfwmacc (FS 7) false) /\
  option_map (fun s => (elem 16 (regs (vs s)) 8 8 0, elem 16 (regs (vs s)) 8 8 1, elem 16 (regs (vs s)) 8 8 2, fflags s)) (fexec x86_host false st (inst Vfwmacc (FS 7) false)) =
    Some (0x4010000000000000, 0x4010000000000000, 0x7ff0000000000000, 0) /\
  option_map (fun s => (elem 16 (regs (vs s)) 8 4 0, fflags s)) (fexec x86_host false (fdemo (two 0x3f800000 1) 4 1 no_f 3) (inst Vfadd (FV 4) true)) = Some (0x3f800001, fNX).
Proof. split; [ready |]. split; [intros _; split; [vm_compute; split; congruence | reflexivity] |]. split; vm_compute; reflexivity. Qed.

(** A NaN result is not made canonical: inf - inf on a host that sets the sign. *)
Theorem vector_fp_nan_refuted : exists st I, host_ok x86_host /\ host_quiet_double x86_host /\ frm st = 0 /\ fi_op I = Vfadd /\ fdeviates fvrel x86_host false st I.
Proof.
  exists (fdemo (two 0x7f800000 0xff800000) 4 1 no_f 0), (inst Vfadd (FV 4) true).
  split; [exact x86_host_is_ok |]. split; [exact x86_host_quiet_double |]. split; [reflexivity |]. split; [reflexivity |].
  deviates 4 4 4 0x7f800000 0xff800000 0xffc00000 16. vm_compute in HR. discriminate HR.
Qed.
Print Assumptions vector_fp_nan_refuted.

(** RMM is computed as RNE: 1 + 2^-24. *)
Theorem vector_fp_rmm_refuted : exists st I, frm st = 4 /\ fi_op I = Vfadd /\ fdeviates fvrel_nan ieee_host false st I.
Proof.
  exists (fdemo (two 0x3f800000 0x33800000) 4 1 no_f 4), (inst Vfadd (FV 4) true). split; [reflexivity |]. split; [reflexivity |].
  deviates 4 4 4 0x3f800000 0x33800000 0x3f800000 1. vm_compute in HR. destruct HR as (_ & _ & D). discriminate D.
Qed.
Print Assumptions vector_fp_rmm_refuted.

(** A scalar that is not boxed is used by its low half, not as a NaN. *)
Theorem vector_fp_unboxed_refuted : exists st I, frm st = 0 /\ fi_op I = Vfadd /\ ~ scalar_boxed (fpr st) (sew (cfg (vs st))) I /\ fdeviates fvrel_nan ieee_host false st I.
Proof.
  exists (fdemo (two 0x3f800000 0) 4 1 (fun _ => 0x3f800000) 0), (inst Vfadd (FS 4) true). split; [reflexivity |]. split; [reflexivity |].
  split; [intros D; destruct (D eq_refl) as [_ B]; vm_compute in B; discriminate B |].
  deviates 4 4 4 0x3f800000 (canonical_nan single) 0x40000000 0. vm_compute in HR. destruct HR as (_ & _ & D). discriminate D.
Qed.
Print Assumptions vector_fp_unboxed_refuted.

(** vfwadd.wv and vfwsub.wv take the elements of vs2 as single: 1 + 1 gives 1, 1 - 1 gives -1. *)
Theorem vector_fp_wide_operand_refuted :
  (exists st I, fi_op I = Vfwaddw /\ frm st = 0 /\ fdeviates fvrel_nan ieee_host false st I) /\
  (exists st I, fi_op I = Vfwsubw /\ frm st = 0 /\ fdeviates fvrel_nan ieee_host false st I).
Proof.
  split; (exists (fdemo (two 0x3ff0000000000000 0x3f800000) 4 1 no_f 0)).
  - exists (inst Vfwaddw (FV 4) true). split; [reflexivity |]. split; [reflexivity |]. deviates 8 8 4 0x3ff0000000000000 0x3f800000 0x3ff0000000000000 0. vm_compute in HR. destruct HR as (_ & _ & D). discriminate D.
  - exists (inst Vfwsubw (FV 4) true). split; [reflexivity |]. split; [reflexivity |]. deviates 8 8 4 0x3ff0000000000000 0x3f800000 0xbff0000000000000 0. vm_compute in HR. destruct HR as (_ & _ & D). discriminate D.
Qed.
Print Assumptions vector_fp_wide_operand_refuted.

(** vfsqrt where no active element is a quiet NaN.  Missing: quiet NaNs (refuted below); RMM and NaN
    patterns as above. *)
Theorem vector_sqrt_partial : forall H wide st I, host_ok H -> host_quiet_double H -> fready st I -> fi_op I = Vfsqrt ->
  frm st <= 3 ->
  (forall j, factive (vlenb (cfg (vs st))) (vstart (cfg (vs st))) (vl (cfg (vs st))) (regs (vs st)) I j ->
     let f := ffmt (8 * sew (cfg (vs st))) in let x := elem (vlenb (cfg (vs st))) (regs (vs st)) (fi_vs2 I) (sew (cfg (vs st))) j in is_nan f x = true -> is_snan f x = true) ->
  exists st', fexec H wide st I = Some st' /\ fdone fvrel_nan st I st'.
Proof.
  intros H wide st I HO HQ RD Ho Hf SQ. apply fexec_correct; try assumption; try (rewrite Ho; reflexivity).
  - intros _; exact Hf.
  - unfold scalar_boxed. rewrite Ho. destruct (fi_src1 I); [exact Logic.I | intros D; discriminate D].
  - intros j Hj. specialize (SQ j Hj). cbv zeta in SQ. rewrite Ho. cbn [fwidths fst snd fv_safe]. set (f := ffmt _) in *. set (x := elem _ _ _ _ _) in *.
    destruct (is_nan f x) eqn:E; [symmetry; apply SQ; reflexivity | unfold is_snan; rewrite E; reflexivity].
  - intros; assumption.
Qed.
Print Assumptions vector_sqrt_partial.

Example vector_sqrt_case :
  let st := fdemo (two 0xbf80000040000000 0) 4 2 no_f 1 in fready st (inst Vfsqrt (FV 0) true) /\
  option_map (fun s => (elem 16 (regs (vs s)) 8 4 0, elem 16 (regs (vs s)) 8 4 1, fflags s)) (fexec ieee_host false st (inst Vfsqrt (FV 0) true)) = Some (0x3fb504f3, 0x7fc00000, fNX + fNV).
Proof. split; [ready | vm_compute; reflexivity]. Qed.

(** A quiet NaN raises the invalid flag. *)
Theorem vector_sqrt_qnan_refuted : exists st I, fi_op I = Vfsqrt /\ frm st = 0 /\ fdeviates fvrel_nan ieee_host false st I.
Proof.
  exists (fdemo (two 0x7fc00000 0) 4 1 no_f 0), (inst Vfsqrt (FV 4) true). split; [reflexivity |]. split; [reflexivity |].
  deviates 4 4 4 0x7fc00000 0 0x7fc00000 16. specialize (K 4 ltac:(lia)). vm_compute in HR. destruct HR as (-> & _). discriminate K.
Qed.
Print Assumptions vector_sqrt_qnan_refuted.

(** * C80 *)

(** vfmin, vfmax, vfsgnj*, vfclass: exactly the values and flags of the specification, in every rounding mode. *)
Theorem vector_fp_minmax_class_partial : forall H wide st I, host_ok H -> host_quiet_double H -> fready st I ->
  In (fi_op I) [Vfmin; Vfmax; Vfclass] \/ (exists k, fi_op I = Vfsgnj k) -> scalar_boxed (fpr st) (sew (cfg (vs st))) I ->
  exists st', fexec H wide st I = Some st' /\ fdone fvrel st I st'.
Proof.
  intros H wide st I HO HQ RD Ho SB.
  assert (K : covered (fi_op I) = true /\ rounded_by_host (fi_op I) = false /\ fi_op I <> Vfsqrt /\ (forall b x, fv_safe (fi_op I) b x) /\ forall b, host_fmt (fi_op I) b = None).
  { destruct Ho as [Ho | [k ->]]; [cbn [In] in Ho; repeat (destruct Ho as [<- | Ho]; [repeat split; try reflexivity; discriminate |]); contradiction Ho | repeat split; try reflexivity; discriminate]. }
  destruct K as (K1 & K2 & K3 & K4 & K5). apply fexec_correct; try assumption; [intros D; rewrite K2 in D; discriminate D | intros; apply K4 |].
  intros b x y z r fl. unfold fvrel_nan. rewrite K5. auto.
Qed.
Print Assumptions vector_fp_minmax_class_partial.

Example vector_fp_minmax_class_case :
  let st := fdemo (two 0x7f80000100000000 0x3f80000080000000) 4 2 no_f 4 in fready st (inst Vfmin (FV 4) true) /\
  option_map (fun s => (elem 16 (regs (vs s)) 8 4 0, elem 16 (regs (vs s)) 8 4 1, fflags s)) (fexec ieee_host false st (inst Vfmin (FV 4) true)) = Some (0x80000000, 0x3f800000, fNV).
Proof. split; [ready | vm_compute; reflexivity]. Qed.

(** vfmerge.vfm takes its scalar from a vector register. *)
Theorem vector_fmerge_refuted : exists st I, fi_op I = Vfmerge /\ frm st = 0 /\ scalar_boxed (fpr st) (sew (cfg (vs st))) I /\ fdeviates fvrel ieee_host false st I.
Proof.
  exists (fdemo (fun r => if r =? 0 then 1 else two 0x3f800000 0x40000000 r) 4 1 (fun _ => 0xffffffff40400000) 0), (inst Vfmerge (FS 4) false).
  split; [reflexivity |]. split; [reflexivity |]. split; [intros _; split; [vm_compute; split; congruence | reflexivity] |].
  deviates 4 4 4 0x3f800000 0x40400000 0x40000000 0. vm_compute in HR. discriminate HR.
Qed.
Print Assumptions vector_fmerge_refuted.

(** * C81 *)

(** Conversions from integers; between formats where no active element is a signaling NaN (needed for
    vfwcvt.f.f.v only).  Missing: RMM, NaN patterns. *)
Theorem vector_convert_to_fp_partial : forall H wide st I, host_ok H -> host_quiet_double H -> fready st I ->
  In (fi_op I) [VfwcvtFF; VfncvtFF] \/ (exists sg, In (fi_op I) [VfcvtFX sg; VfwcvtFX sg; VfncvtFX sg]) -> frm st <= 3 ->
  (forall j, factive (vlenb (cfg (vs st))) (vstart (cfg (vs st))) (vl (cfg (vs st))) (regs (vs st)) I j -> fi_op I = VfwcvtFF ->
     is_snan single (elem (vlenb (cfg (vs st))) (regs (vs st)) (fi_vs2 I) 4 j) = false) ->
  exists st', fexec H wide st I = Some st' /\ fdone fvrel_nan st I st'.
Proof.
  intros H wide st I HO HQ RD Ho Hf SN.
  assert (S4 : fi_op I = VfwcvtFF -> sew (cfg (vs st)) = 4).
  { intros E. destruct RD as (HL & _). unfold flegal in HL. rewrite E in HL. cbn [fwidths fsews In] in HL. clear - HL. lia. }
  assert (K : covered (fi_op I) = true /\ fi_op I <> Vfsqrt /\ has_f1 (fi_op I) = false /\ (fi_op I <> VfwcvtFF -> forall b x, fv_safe (fi_op I) b x)).
  { destruct Ho as [Ho | [sg Ho]]; cbn [In] in Ho; repeat (destruct Ho as [<- | Ho]; [repeat split; try reflexivity; try discriminate; intros D; contradiction |]); contradiction Ho. }
  destruct K as (K1 & K2 & K3 & K4). apply fexec_correct; try assumption.
  - intros _. exact Hf.
  - unfold scalar_boxed. rewrite K3. destruct (fi_src1 I); [exact Logic.I | intros D; discriminate D].
  - intros j Hj. assert (D : fi_op I = VfwcvtFF \/ fi_op I <> VfwcvtFF) by (destruct (fi_op I); (left; reflexivity) || (right; discriminate)).
    destruct D as [D | D]; [| apply K4; exact D]. specialize (SN j Hj D). rewrite D, (S4 D). cbn [fwidths fst snd fv_safe]. exact SN.
  - intros; assumption.
Qed.
Print Assumptions vector_convert_to_fp_partial.

Example vector_convert_to_fp_case :
  let st := fdemo (two 0xffffffff01000001 0) 4 2 no_f 2 in fready st (inst (VfcvtFX true) (FV 0) true) /\
  option_map (fun s => (elem 16 (regs (vs s)) 8 4 0, elem 16 (regs (vs s)) 8 4 1, fflags s)) (fexec ieee_host false st (inst (VfcvtFX true) (FV 0) true)) = Some (0x4b800000, 0xbf800000, fNX) /\
  option_map (fun s => (elem 16 (regs (vs s)) 8 4 0, fflags s)) (fexec ieee_host false (fdemo (two 0x380fffffffffffff 0) 4 1 no_f 3) (inst VfncvtFF (FV 0) true)) = Some (0x00800000, fNX).
Proof. split; [ready | split; vm_compute; reflexivity]. Qed.

(** Conversions to integers where every active element is integral, infinite or a NaN: the value, the
    saturated bound, the flags.  The integer just above the range must not be an element when the format
    has no room for the largest integer (undefined, see below).  Missing: elements that need rounding (refuted below). *)
Theorem vector_convert_to_int_partial : forall H wide st I, host_ok H -> host_quiet_double H -> fready st I ->
  (exists rtz sg, In (fi_op I) [VfcvtXF rtz sg; VfwcvtXF rtz sg; VfncvtXF rtz sg]) ->
  (forall j, factive (vlenb (cfg (vs st))) (vstart (cfg (vs st))) (vl (cfg (vs st))) (regs (vs st)) I j ->
     fv_safe (fi_op I) (8 * sew (cfg (vs st))) (elem (vlenb (cfg (vs st))) (regs (vs st)) (fi_vs2 I) (snd (fst (fwidths (fi_op I) (sew (cfg (vs st)))))) j)) ->
  exists st', fexec H wide st I = Some st' /\ fdone fvrel st I st'.
Proof.
  intros H wide st I HO HQ RD (rtz & sg & Ho) Safe.
  assert (K : covered (fi_op I) = true /\ rounded_by_host (fi_op I) = false /\ fi_op I <> Vfsqrt /\ has_f1 (fi_op I) = false /\ forall b, host_fmt (fi_op I) b = None).
  { cbn [In] in Ho; repeat (destruct Ho as [<- | Ho]; [repeat split; try reflexivity; discriminate |]); contradiction Ho. }
  destruct K as (K1 & K2 & K3 & K4 & K5). apply fexec_correct; try assumption; [intros D; rewrite K2 in D; discriminate D | |].
  - unfold scalar_boxed. rewrite K4. destruct (fi_src1 I); [exact Logic.I | intros D; discriminate D].
  - intros b x y z r fl. unfold fvrel_nan. rewrite K5. auto.
Qed.
Print Assumptions vector_convert_to_int_partial.

Example vector_convert_to_int_case :
  let st := fdemo (two 0xcf80000040400000 0) 4 2 no_f 0 in fready st (inst (VfcvtXF false true) (FV 0) true) /\
  exact_int single true 32 0x40400000 /\ exact_int single true 32 0xcf800000 /\
  option_map (fun s => (elem 16 (regs (vs s)) 8 4 0, elem 16 (regs (vs s)) 8 4 1, fflags s)) (fexec ieee_host false st (inst (VfcvtXF false true) (FV 0) true)) = Some (3, 0x80000000, fNV).
Proof.
  split; [ready |]. split; [right; exists 3; split; [vm_compute; split; reflexivity | left; discriminate] |].
  split; [right; exists (- 2 ^ 32); split; [vm_compute; split; reflexivity | left; discriminate] |]. vm_compute. reflexivity.
Qed.

(** The rounding mode is ignored: 2.5 towards +infinity gives 2, and not even the inexact flag. *)
Theorem vector_convert_rounding_refuted : exists st I, fi_op I = VfcvtXF false true /\ frm st = 3 /\ fdeviates fvrel ieee_host false st I.
Proof.
  exists (fdemo (two 0x40200000 0) 4 1 no_f 3), (inst (VfcvtXF false true) (FV 4) true). split; [reflexivity |]. split; [reflexivity |].
  deviates 4 4 4 0x40200000 0 2 0.
  assert (N : forall m y z, ~ fvrel (VfcvtXF false true) 32 3 m 0x40200000 y z 2 ra).
  { clear. intros m y z (v & T & W). unfold to_int in T. change (is_nan (ffmt 32) 0x40200000) with false in T. change (is_inf (ffmt 32) 0x40200000) with false in T.
    destruct T as (n & R & T). change (units (ffmt 32) 0x40200000) with (5 * 2 ^ 148) in R, T. change (2 ^ quantum (ffmt 32)) with (2 * 2 ^ 148) in R, T.
    unfold rounds in R. cbn in R. pose proof (pow2_pos 148 ltac:(lia)) as P. assert (n = 3) as -> by (clear - R P; nia). vm_compute in T. destruct T as [-> _]. discriminate W. }
  exact (N _ _ _ HR).
Qed.
Print Assumptions vector_convert_rounding_refuted.

(** The integer just above the range: 2^31 to a signed 32-bit integer has undefined behaviour. *)
Theorem vector_convert_limit_refuted : exists st I, fi_op I = VfcvtXF true true /\ fready st I /\ forall H wide, fexec H wide st I = None.
Proof.
  exists (fdemo (two 0x4f000000 0) 4 1 no_f 0), (inst (VfcvtXF true true) (FV 4) true). split; [reflexivity |]. split; [ready |]. intros H wide. vm_compute. reflexivity.
Qed.
Print Assumptions vector_convert_limit_refuted.

(** vfwcvt.f.f.v does not record the invalid flag of a signaling NaN. *)
Theorem vector_widen_snan_refuted : exists st I, fi_op I = VfwcvtFF /\ frm st = 0 /\ fdeviates fvrel_nan ieee_host false st I.
Proof.
  exists (fdemo (two 0x7f800001 0) 4 1 no_f 0), (inst VfwcvtFF (FV 4) true). split; [reflexivity |]. split; [reflexivity |].
  deviates 8 4 4 0x7f800001 0 0x7ff8000000000000 0. specialize (K 4 ltac:(lia)). vm_compute in HR. destruct HR as (-> & _). discriminate K.
Qed.
Print Assumptions vector_widen_snan_refuted.

(** vfncvt.rod.f.f.w: a wrong value (the host rounds up to even, then the last bit is set), an overflow
    to infinity, and never a flag. *)
Theorem vector_round_to_odd_refuted :
  (exists st I, fi_op I = VfncvtRod /\ frm st = 0 /\ fdeviates (fun o b mode m x y z r _ => exists fl, fvrel_nan o b mode m x y z r fl) ieee_host false st I) /\
  (exists st I, fi_op I = VfncvtRod /\ frm st = 0 /\ exists st', fready st I /\ fexec ieee_host false st I = Some st' /\
     elem 16 (regs (vs st)) (fi_vs2 I) 8 0 = huge double false /\ elem 16 (regs (vs st')) (fi_vd I) 4 0 = infinity single false /\ fst (to_odd (huge double false)) = huge single false) /\
  (exists st I, fi_op I = VfncvtRod /\ frm st = 0 /\ fdeviates (fun o b mode m x y z _ fl => exists r, fvrel_nan o b mode m x y z r fl) ieee_host false st I).
Proof.
  split; [| split].
  - exists (fdemo (two 0x3ff0000030000001 0) 4 1 no_f 0), (inst VfncvtRod (FV 4) true). split; [reflexivity |]. split; [reflexivity |].
    deviates 4 8 4 0x3ff0000030000001 0 0x3f800003 0. destruct HR as (fl & HR). vm_compute in HR. destruct HR as (_ & _ & D). discriminate D.
  - exists (fdemo (two (huge double false) 0) 4 1 no_f 0), (inst VfncvtRod (FV 4) true). split; [reflexivity |]. split; [reflexivity |].
    assert (E : option_map (fun s => elem 16 (regs (vs s)) 8 4 0) (fexec ieee_host false (fdemo (two (huge double false) 0) 4 1 no_f 0) (inst VfncvtRod (FV 4) true)) = Some (infinity single false)) by (vm_compute; reflexivity).
    destruct (fexec ieee_host false (fdemo (two (huge double false) 0) 4 1 no_f 0) (inst VfncvtRod (FV 4) true)) as [st' |]; [| discriminate E]. injection E as E.
    exists st'. split; [ready |]. split; [reflexivity |]. split; [vm_compute; reflexivity |]. split; [exact E | vm_compute; reflexivity].
  - exists (fdemo (two 0x3ff0000000000001 0) 4 1 no_f 0), (inst VfncvtRod (FV 4) true). split; [reflexivity |]. split; [reflexivity |].
    deviates 4 8 4 0x3ff0000000000001 0 0x3f800001 0. destruct HR as (r & HR). specialize (K 0 ltac:(lia)). destruct HR as (D & _). vm_compute in D. rewrite D in K. discriminate K.
Qed.
Print Assumptions vector_round_to_odd_refuted.

(** * C82 *)

(** vfrsqrt7 and vfrec7: within 2^-7 of the exact value, with the special cases of the specification, where
    [fv_safe] holds.  Missing: what [fv_safe] excludes (refuted below). *)
Theorem vector_estimate_partial : forall H wide st I, host_ok H -> host_quiet_double H -> fready st I -> In (fi_op I) [Vfrsqrt7; Vfrec7] ->
  (forall j, factive (vlenb (cfg (vs st))) (vstart (cfg (vs st))) (vl (cfg (vs st))) (regs (vs st)) I j ->
     fv_safe (fi_op I) (8 * sew (cfg (vs st))) (elem (vlenb (cfg (vs st))) (regs (vs st)) (fi_vs2 I) (sew (cfg (vs st))) j)) ->
  exists st', fexec H wide st I = Some st' /\ fdone fvrel st I st'.
Proof.
  intros H wide st I HO HQ RD Ho Safe.
  assert (K : covered (fi_op I) = true /\ rounded_by_host (fi_op I) = false /\ fi_op I <> Vfsqrt /\ has_f1 (fi_op I) = false /\ (forall b, host_fmt (fi_op I) b = None) /\ forall w, snd (fst (fwidths (fi_op I) w)) = w).
  { cbn [In] in Ho; repeat (destruct Ho as [<- | Ho]; [repeat split; try reflexivity; discriminate |]); contradiction Ho. }
  destruct K as (K1 & K2 & K3 & K4 & K5 & K6). apply fexec_correct; try assumption; [intros D; rewrite K2 in D; discriminate D | | |].
  - unfold scalar_boxed. rewrite K4. destruct (fi_src1 I); [exact Logic.I | intros D; discriminate D].
  - intros j Hj. rewrite K6. apply Safe, Hj.
  - intros b x y z r fl. unfold fvrel_nan. rewrite K5. auto.
Qed.
Print Assumptions vector_estimate_partial.

(** 1/3; 1/sqrt 4, -inf to NaN. *)
Example vector_estimate_case :
  let st := fdemo (two 0x40400000 0) 4 1 no_f 0 in fready st (inst Vfrec7 (FV 0) true) /\ fv_safe Vfrec7 32 0x40400000 /\
  option_map (fun s => (elem 16 (regs (vs s)) 8 4 0, fflags s)) (fexec ieee_host false st (inst Vfrec7 (FV 0) true)) = Some (0x3eaa0000, 0) /\
  option_map (fun s => (elem 16 (regs (vs s)) 8 4 0, elem 16 (regs (vs s)) 8 4 1, fflags s)) (fexec ieee_host false (fdemo (two 0xff80000040800000 0) 4 2 no_f 0) (inst Vfrsqrt7 (FV 0) true)) = Some (0x3eff0000, 0x7fc00000, fNV).
Proof. split; [ready |]. split; [vm_compute; repeat split; auto | split; vm_compute; reflexivity]. Qed.

(** vfrsqrt7: a wrong entry of the table (1.375 gives 0.57 instead of 0.85); +infinity and a quiet NaN raise the invalid flag. *)
Theorem vector_rsqrt7_refuted : exists st1 st2 st3 I, fi_op I = Vfrsqrt7 /\
  elem 16 (regs (vs st1)) (fi_vs2 I) 4 0 = 0x3fb00000 /\ fdeviates fvrel ieee_host false st1 I /\
  elem 16 (regs (vs st2)) (fi_vs2 I) 4 0 = infinity single false /\ fdeviates fvrel ieee_host false st2 I /\
  elem 16 (regs (vs st3)) (fi_vs2 I) 4 0 = canonical_nan single /\ fdeviates fvrel ieee_host false st3 I.
Proof.
  exists (fdemo (two 0x3fb00000 0) 4 1 no_f 0), (fdemo (two 0x7f800000 0) 4 1 no_f 0), (fdemo (two 0x7fc00000 0) 4 1 no_f 0), (inst Vfrsqrt7 (FV 4) true).
  split; [reflexivity |]. split; [vm_compute; reflexivity |]. split.
  { deviates 4 4 4 0x3fb00000 0 0x3f140000 0. vm_compute in HR. destruct HR as (_ & _ & _ & D & _). discriminate D. }
  split; [vm_compute; reflexivity |]. split.
  { deviates 4 4 4 0x7f800000 0 0 16. vm_compute in HR. destruct HR as (_ & ->). specialize (K 4 ltac:(lia)). discriminate K. }
  split; [vm_compute; reflexivity |].
  deviates 4 4 4 0x7fc00000 0 0x7fc00000 16. vm_compute in HR. destruct HR as (_ & ->). specialize (K 4 ltac:(lia)). discriminate K.
Qed.
Print Assumptions vector_rsqrt7_refuted.

(** vfrec7: 1/0 without the divide-by-zero flag; 1/2^-149 without overflow flag; 1/2^127 gives 2^-144;
    a signaling NaN without the invalid flag. *)
Theorem vector_rec7_refuted : exists st1 st2 st3 st4 I, fi_op I = Vfrec7 /\
  elem 16 (regs (vs st1)) (fi_vs2 I) 4 0 = zero single false /\ fdeviates fvrel ieee_host false st1 I /\
  elem 16 (regs (vs st2)) (fi_vs2 I) 4 0 = 1 /\ fdeviates fvrel ieee_host false st2 I /\
  elem 16 (regs (vs st3)) (fi_vs2 I) 4 0 = 0x7f000000 /\ fdeviates fvrel ieee_host false st3 I /\
  elem 16 (regs (vs st4)) (fi_vs2 I) 4 0 = 0x7f800001 /\ fdeviates fvrel ieee_host false st4 I.
Proof.
  exists (fdemo (two 0 0) 4 1 no_f 0), (fdemo (two 1 0) 4 1 no_f 0), (fdemo (two 0x7f000000 0) 4 1 no_f 0), (fdemo (two 0x7f800001 0) 4 1 no_f 0), (inst Vfrec7 (FV 4) true).
  split; [reflexivity |]. split; [vm_compute; reflexivity |]. split.
  { deviates 4 4 4 0 0 0x7f800000 0. vm_compute in HR. destruct HR as (_ & ->). specialize (K 3 ltac:(lia)). discriminate K. }
  split; [vm_compute; reflexivity |]. split.
  { deviates 4 4 4 1 0 0x7f800000 0. vm_compute in HR. destruct HR as (-> & _). specialize (K 2 ltac:(lia)). discriminate K. }
  split; [vm_compute; reflexivity |]. split.
  { deviates 4 4 4 0x7f000000 0 32 0. vm_compute in HR. destruct HR as (_ & _ & _ & _ & D & _). discriminate D. }
  split; [vm_compute; reflexivity |].
  deviates 4 4 4 0x7f800001 0 0x7fc00000 0. vm_compute in HR. destruct HR as (_ & ->). specialize (K 4 ltac:(lia)). discriminate K.
Qed.
Print Assumptions vector_rec7_refuted.

(** * C83 *)

(** Only the exception flag is set. *)
Definition only_raises (st st' : fstate) : Prop :=
  regs (vs st') = regs (vs st) /\ fpr st' = fpr st /\ frm st' = frm st /\ fflags st' = fflags st /\ vexc (cfg (vs st')) = true /\
  let c := cfg (vs st) in let c' := cfg (vs st') in
  vtype c' = vtype c /\ vl c' = vl c /\ vstart c' = vstart c /\ vxsat c' = vxsat c /\ vxrm c' = vxrm c /\ sew c' = sew c /\ lmul8 c' = lmul8 c /\ vlmax c' = vlmax c.

(** With a reserved rounding mode in frm, or at a SEW with no supported format, an instruction raises the
    exception and changes nothing.  Missing: the instructions that do not use frm (refuted below). *)
Theorem vector_fp_illegal_partial : forall H wide st I, uses_frm (fi_op I) = true /\ ~ 0 <= frm st <= 4 \/ ~ In (sew (cfg (vs st))) (fsews (fi_op I)) ->
  exists st', fexec H wide st I = Some st' /\ only_raises st st'.
Proof.
  intros H wide st I D. assert (O : only_raises st (fraise st)) by (repeat split; reflexivity). unfold fexec. cbv zeta.
  destruct (checks_rm (fv_semfunc (fi_op I)) && negb (rounding_mode_valid (frm st))) eqn:E; [exists (fraise st); split; [reflexivity | exact O] |].
  assert (S : fsizes (fv_semfunc (fi_op I)) (sew (cfg (vs st))) = None); [| rewrite S; exists (fraise st); split; [reflexivity | exact O]].
  destruct D as [[U F] | S].
  - exfalso. assert (C : checks_rm (fv_semfunc (fi_op I)) = true) by (clear - U; destruct (fi_op I) as [| | | | | | | | | | | | | | | | | | | | | | | | | | | | | | | [] | [] | [] | | | | | |]; try discriminate U; reflexivity).
    rewrite C in E. unfold rounding_mode_valid in E. cbn [andb] in E. apply negb_false_iff, andb_true_iff in E. destruct E as [E1 E2]. apply F. clear - E1 E2. lia.
  - set (w := sew (cfg (vs st))) in *. clearbody w. clear - S.
    destruct (fi_op I); cbn [fsews In] in S; cbn [fv_semfunc fsizes]; repeat match goal with |- context [if w =? ?n then _ else _] => destruct (Z.eqb_spec w n); [lia |] end; reflexivity.
Qed.
Print Assumptions vector_fp_illegal_partial.

Example vector_fp_illegal_case : option_map (fun s => vexc (cfg (vs s))) (fexec ieee_host false (fdemo (two 0 0) 4 1 no_f 5) (inst Vfadd (FV 4) true)) = Some true /\
  option_map (fun s => vexc (cfg (vs s))) (fexec ieee_host false (fdemo (two 0 0) 2 1 no_f 0) (inst Vfadd (FV 4) true)) = Some true.
Proof. split; vm_compute; reflexivity. Qed.

(** vfmin runs with a reserved rounding mode. *)
Theorem vector_fp_frm_refuted : exists st I, frm st = 5 /\ fi_op I = Vfmin /\ vexc (cfg (vs st)) = false /\
  option_map (fun s => vexc (cfg (vs s))) (fexec ieee_host false st I) = Some false /\
  option_map (fun s => elem 16 (regs (vs s)) (fi_vd I) 4 0) (fexec ieee_host false st I) = Some 0x3f800000 /\ elem 16 (regs (vs st)) (fi_vd I) 4 0 = 0.
Proof.
  exists (fdemo (two 0x3f800000 0x40000000) 4 1 no_f 5), (inst Vfmin (FV 4) true). repeat (split; [vm_compute; reflexivity |]). vm_compute. reflexivity.
Qed.
Print Assumptions vector_fp_frm_refuted.
