(** Floating-point arithmetic (C70), fused multiply-add (C71), conversions to single and double (C72). *)
From Coq Require Import ZArith Bool List Lia.
From Verif Require Import Bits IeeeSpec FpSpec IntModel FpModel FpProofs FpCvt FpWiden FpExec FpProps FarithSpec FarithModel FarithProofs FarithExec SqrtWide.
Import ListNotations.
Local Open Scope Z_scope.

(** The instruction completes, writes its destination, and the value and the flags are those of the
    manual. *)
Definition a_conforms (H : host) (wide : bool) (dyn : option Z) (I : ainst) (rm mode a b c old : Z) : Prop :=
  exists d fl, a_exec H wide dyn I rm a b c old = Some (Wrote d fl) /\ a_correct I mode a b c d fl.

(** It completes with something else. *)
Definition a_deviates (H : host) (wide : bool) (dyn : option Z) (I : ainst) (rm mode a b c old : Z) : Prop :=
  exists d fl, a_exec H wide dyn I rm a b c old = Some (Wrote d fl) /\ ~ a_correct I mode a b c d fl.

(** * Hosts exist that satisfy [host_ok] *)

(** The operations of IEEE 754 themselves, and a host that, like x86, gives NaN results a set sign. *)
Definition nan_sign (f : fmt) (r : Z * Z) : Z * Z := if is_nan f (fst r) then (flip f (fst r), snd r) else r.
Definition ieee_host : host :=
  {| h_add := ieee_add; h_sub := ieee_sub; h_mul := ieee_mul; h_div := ieee_div; h_sqrt := ieee_sqrt; h_fma := ieee_fma;
     h_cvt := ieee_cvt; h_int := ieee_of_int |}.
Definition x86_host : host :=
  {| h_add f rm a b := nan_sign f (ieee_add f rm a b); h_sub f rm a b := nan_sign f (ieee_sub f rm a b);
     h_mul f rm a b := nan_sign f (ieee_mul f rm a b); h_div f rm a b := nan_sign f (ieee_div f rm a b);
     h_sqrt f rm a := nan_sign f (ieee_sqrt f rm a); h_fma f rm a b c := nan_sign f (ieee_fma f rm a b c);
     h_cvt f g rm a := nan_sign g (ieee_cvt f g rm a); h_int := ieee_of_int |}.

Lemma like_refl : forall f r, sd f -> canonical f (fst r) -> like f r r.
Proof.
  intros f r Hf C. split; [reflexivity |]. split; [apply canonical_range; [apply sd_formats; exact Hf | exact C] |].
  destruct (is_nan f (fst r)); reflexivity.
Qed.
Lemma like_nan_sign : forall f r, sd f -> canonical f (fst r) -> like f (nan_sign f r) r.
Proof.
  intros f r Hf C. pose proof (canonical_range f _ (sd_formats f Hf) C) as R. destruct (flip_facts f (fst r) (sd_ok f Hf) R) as (_ & _ & _ & R' & N & _).
  unfold like, nan_sign. destruct (is_nan f (fst r)) eqn:E; cbn [fst snd]; (split; [reflexivity |]); split; try assumption; reflexivity.
Qed.

Lemma sqrt_canonical : forall f rm a, okf f -> 0 <= a < 2 ^ width f -> canonical f (fst (ieee_sqrt f rm a)).
Proof.
  intros f rm a Hok Ha. unfold ieee_sqrt, canonical. destruct (is_nan f a) eqn:N; [right; reflexivity |]. destruct (is_zero f a); [left; split; assumption |].
  destruct (sign f a) eqn:S; [right; reflexivity |]. destruct (is_inf f a); [left; split; assumption |]. left. cbv zeta. apply number_rat; [exact Hok |].
  pose proof (quantum_pos f Hok). destruct Hok. apply Z.pow_pos_nonneg; lia.
Qed.
Lemma all_canonical : forall f rm a b c, sd f -> 0 <= a < 2 ^ width f -> 0 <= b < 2 ^ width f -> 0 <= c < 2 ^ width f ->
  canonical f (fst (ieee_add f rm a b)) /\ canonical f (fst (ieee_sub f rm a b)) /\ canonical f (fst (ieee_mul f rm a b)) /\
  canonical f (fst (ieee_div f rm a b)) /\ canonical f (fst (ieee_sqrt f rm a)) /\ canonical f (fst (ieee_fma f rm a b c)) /\
  (forall g, sd g -> canonical g (fst (ieee_cvt f g rm a))) /\ (forall n, canonical f (fst (ieee_of_int f rm n))).
Proof.
  intros f rm a b c Hf Ha Hb Hc. pose proof (sd_ok f Hf) as Hok.
  split; [apply add_canonical; assumption |]. split; [apply sub_canonical; assumption |]. split; [apply mul_canonical; assumption |].
  split; [apply div_canonical; assumption |]. split.
  { apply sqrt_canonical; assumption. }
  split; [apply fma_canonical; assumption |]. split; [| intros n; left; apply int_number; exact Hok].
  intros g Hg. unfold canonical. destruct (is_nan f a) eqn:N; [right; unfold ieee_cvt; rewrite N; reflexivity | left; apply cvt_number; [exact Hok | apply sd_ok; exact Hg | exact N]].
Qed.

Example ieee_host_is_ok : host_ok ieee_host.
Proof.
  intros f rm a b c Hf Hr Ha Hb Hc. destruct (all_canonical f rm a b c Hf Ha Hb Hc) as (C1 & C2 & C3 & C4 & C5 & C6 & C7 & C8).
  repeat (split; [apply like_refl; assumption |]). split; [intros g Hg; apply like_refl; [exact Hg | apply C7; exact Hg] | intros n _; apply like_refl; [exact Hf | apply C8]].
Qed.
Example x86_host_is_ok : host_ok x86_host.
Proof.
  intros f rm a b c Hf Hr Ha Hb Hc. destruct (all_canonical f rm a b c Hf Ha Hb Hc) as (C1 & C2 & C3 & C4 & C5 & C6 & C7 & C8).
  repeat (split; [apply like_nan_sign; assumption |]). split; [intros g Hg; apply like_nan_sign; [exact Hg | apply C7; exact Hg] | intros n _; apply like_refl; [exact Hf | apply C8]].
Qed.

(** * C70 *)

(** Add, subtract, multiply, divide and square root of all register contents (also ones not properly
    boxed), in the modes RNE, RTZ, RDN, RUP, on every host that follows IEEE 754: correctly rounded,
    canonical NaNs, exact flags.  This also if a float sqrt call selects the double function and the
    result is rounded twice.  Missing: RMM (refuted below). *)
Theorem arith_rounded_partial : forall H wide dyn f I rm mode a b c old, host_ok H -> f = single \/ f = double ->
  In I [AAdd f; ASub f; AMul f; ADiv f; ASqrt f] -> mode_of dyn rm mode -> 0 <= mode <= 3 -> reg a -> reg b -> reg old ->
  a_conforms H wide dyn I rm mode a b c old.
Proof.
  intros H wide dyn f I rm mode a b c old HH Hf HI HM Hm Ha Hb Ho. destruct (mode_resolve dyn rm mode HM) as [Hrm HR].
  pose proof (unbox_range f a (sd_formats f Hf)) as Ra. pose proof (unbox_range f b (sd_formats f Hf)) as Rb.
  destruct (HH f mode (unbox f a) (unbox f b) (unbox f b) Hf Hm Ra Rb Rb) as (L1 & L2 & L3 & L4 & _).
  destruct (all_canonical f mode (unbox f a) (unbox f b) (unbox f b) Hf Ra Rb Rb) as (C1 & C2 & C3 & C4 & _).
  assert (HRM : host_rm mode = mode) by (apply host_rm_id; exact Hm).
  eexists. eexists. split; [| split; reflexivity]. unfold a_exec, a_result, a_fmt.
  destruct HI as [<- | [<- | [<- | [<- | [<- | []]]]]].
  - apply (binary_correct dyn f _ _ rm mode); try assumption. cbv beta. rewrite HRM. exact L1.
  - apply (binary_correct dyn f _ _ rm mode); try assumption. cbv beta. rewrite HRM. exact L2.
  - apply (binary_correct dyn f _ _ rm mode); try assumption. cbv beta. rewrite HRM. exact L3.
  - apply (binary_correct dyn f _ _ rm mode); try assumption. cbv beta. rewrite HRM. exact L4.
  - apply (sqrt_correct H wide dyn f rm mode); try assumption. intros x Hx N Z0 S. apply sqrt_call_ok; assumption.
Qed.
Print Assumptions arith_rounded_partial.

(** 1/3 in single precision rounding up on the x86-like host; an operand that is not boxed gives the
    canonical NaN; the smallest subnormal halved underflows; roots of 2, the second by
    way of double precision. *)
Example arith_case :
  a_exec x86_host false None (ADiv single) 3 0xffffffff3f800000 0xffffffff40400000 0 0 = Some (Wrote 0xffffffff3eaaaaab fNX) /\
  a_exec x86_host false None (AAdd single) 0 0x3f800000 0xffffffff3f800000 0 0 = Some (Wrote 0xffffffff7fc00000 0) /\
  a_exec x86_host false (Some 1) (AMul double) 7 1 0x3fe0000000000000 0 0 = Some (Wrote 0 (fUF + fNX)) /\
  a_exec x86_host false None (ASqrt double) 0 0x4000000000000000 0 0 0 = Some (Wrote 0x3ff6a09e667f3bcd fNX) /\
  a_exec x86_host true None (ASqrt single) 3 0xffffffff40000000 0 0 0 = Some (Wrote 0xffffffff3fb504f4 fNX) /\
  host_ok x86_host.
Proof. do 5 (split; [vm_compute; reflexivity |]). exact x86_host_is_ok. Qed.

(** What RMM does: the result is that of RNE. *)
Theorem rmm_runs_as_rne_partial : forall H wide dyn f I rm a b c old, host_ok H -> f = single \/ f = double ->
  In I [AAdd f; ASub f; AMul f; ADiv f] -> mode_of dyn rm 4 -> reg a -> reg b -> reg old ->
  a_exec H wide dyn I rm a b c old = Some (Wrote (box f (fst (a_result I 0 a b c))) (snd (a_result I 0 a b c))).
Proof.
  intros H wide dyn f I rm a b c old HH Hf HI HM Ha Hb Ho. destruct (mode_resolve dyn rm 4 HM) as [Hrm HR].
  pose proof (unbox_range f a (sd_formats f Hf)) as Ra. pose proof (unbox_range f b (sd_formats f Hf)) as Rb.
  destruct (HH f 0 (unbox f a) (unbox f b) (unbox f b) Hf ltac:(lia) Ra Rb Rb) as (L1 & L2 & L3 & L4 & _).
  destruct (all_canonical f 0 (unbox f a) (unbox f b) (unbox f b) Hf Ra Rb Rb) as (C1 & C2 & C3 & C4 & _).
  unfold a_exec, a_result. destruct HI as [<- | [<- | [<- | [<- | []]]]]; apply (binary_correct dyn f _ _ rm 4); assumption.
Qed.
Print Assumptions rmm_runs_as_rne_partial.

(** So ties are wrong in RMM: 1 + 2^-24 stays 1. *)
Theorem rmm_arith_refuted : forall H, host_ok H -> exists a b, reg a /\ reg b /\ a_deviates H false None (AAdd single) 4 4 a b 0 0.
Proof.
  intros H HH. exists 0xffffffff3f800000, 0xffffffff33800000. split; [unfold reg; lia |]. split; [unfold reg; lia |].
  eexists. eexists. split.
  - apply (rmm_runs_as_rne_partial H false None single); try assumption; try (unfold reg; lia);
      [left; reflexivity | left; reflexivity | split; [lia | reflexivity]].
  - intros [E _]. vm_compute in E. discriminate E.
Qed.
Print Assumptions rmm_arith_refuted.

(** * C71 *)

(** The single-precision family, for boxed operands, modes RNE, RTZ, RDN, RUP, when the call fma(a, b, c)
    selects the float function. *)
Theorem fma_single_partial : forall H dyn np na rm mode a b c old, host_ok H -> mode_of dyn rm mode -> 0 <= mode <= 3 ->
  boxed single a = true -> boxed single b = true -> boxed single c = true -> reg old ->
  a_conforms H false dyn (AFma single np na) rm mode a b c old.
Proof.
  intros H dyn np na rm mode a b c old HH HM Hm Ba Bb Bc Ho. destruct (mode_resolve dyn rm mode HM) as [Hrm HR].
  pose proof (unbox_range single a in_single) as Ra. pose proof (unbox_range single b in_single) as Rb. pose proof (unbox_range single c in_single) as Rc.
  eexists. eexists. split; [| split; reflexivity]. unfold a_exec, a_result, a_fmt. change (is_fmt single single) with true. cbv iota.
  apply (ternary_correct dyn single _ _ rm mode); try assumption; [left; reflexivity | apply fma_s_correct; assumption |].
  apply canonical_range; [exact in_single |]. apply fma_canonical; [apply sd_ok; left; reflexivity |].
  apply opt_flip_facts; [apply sd_ok; left; reflexivity | exact Rc].
Qed.
Print Assumptions fma_single_partial.

(** -(1.5 * 2) + 3 is +0, in RDN -0; inf * 0 + NaN is invalid. *)
Example fma_single_case :
  a_exec x86_host false None (AFma single true false) 0 0xffffffff3fc00000 0xffffffff40000000 0xffffffff40400000 0 = Some (Wrote 0xffffffff00000000 0) /\
  a_exec x86_host false None (AFma single true false) 2 0xffffffff3fc00000 0xffffffff40000000 0xffffffff40400000 0 = Some (Wrote 0xffffffff80000000 0) /\
  a_exec x86_host false None (AFma single false false) 0 0xffffffff7f800000 0xffffffff00000000 0xffffffff7fc00001 0 = Some (Wrote 0xffffffff7fc00000 fNV) /\
  boxed single 0xffffffff3fc00000 = true.
Proof. repeat split; vm_compute; reflexivity. Qed.

(** The double-precision family, under [fma_safe]. *)
Theorem fma_double_partial : forall H wide dyn np na rm mode a b c old, host_ok H -> mode_of dyn rm mode -> 0 <= mode <= 3 ->
  reg a -> reg b -> reg c -> reg old -> fma_safe np na mode a b c ->
  a_conforms H wide dyn (AFma double np na) rm mode a b c old.
Proof.
  intros H wide dyn np na rm mode a b c old HH HM Hm Ha Hb Hc Ho HS. destruct (mode_resolve dyn rm mode HM) as [Hrm HR].
  assert (B : forall r, reg r -> boxed double r = true).
  { intros r Hr. unfold boxed. change (2 ^ (FLEN - width double) - 1) with 0. apply Z.eqb_eq. apply Z.div_small. exact Hr. }
  eexists. eexists. split; [| split; reflexivity]. unfold a_exec, a_result, a_fmt. change (is_fmt double single) with false. cbv iota.
  apply (ternary_correct dyn double _ _ rm mode); try assumption; try (apply B; assumption); [right; reflexivity | |].
  - rewrite !unbox_double by assumption. apply fma_d_correct; assumption.
  - rewrite !unbox_double by assumption. apply canonical_range; [exact in_double |]. apply fma_canonical; [exact fmt_facts_double |].
    apply opt_flip_facts; [exact fmt_facts_double | exact Hc].
Qed.
Print Assumptions fma_double_partial.

(** fnmadd of 1.5, 2, 4 is -7: the conditions hold. *)
Example fma_double_case : fma_safe true true 1 0x3ff8000000000000 0x4000000000000000 0x4010000000000000 /\
  a_exec x86_host false None (AFma double true true) 1 0x3ff8000000000000 0x4000000000000000 0x4010000000000000 0 = Some (Wrote 0xc01c000000000000 0).
Proof.
  split; [| vm_compute; reflexivity]. unfold fma_safe. split; [reflexivity |]. split; [reflexivity |]. split; [reflexivity |].
  split; [intros Z0; vm_compute in Z0; discriminate Z0 |]. intros _ _ _ _ _. split; [right; reflexivity |]. vm_compute. discriminate.
Qed.

(** What a host does in one case decides the result. *)
Lemma host_case : forall H f mode a b c, host_ok H -> sd f -> 0 <= mode <= 3 -> 0 <= a < 2 ^ width f -> 0 <= b < 2 ^ width f -> 0 <= c < 2 ^ width f ->
  is_nan f (fst (ieee_fma f mode a b c)) = false -> h_fma H f mode a b c = ieee_fma f mode a b c.
Proof.
  intros H f mode a b c HH Hf Hm Ha Hb Hc N. destruct (HH f mode a b c Hf Hm Ha Hb Hc) as (_ & _ & _ & _ & _ & L & _).
  apply (like_number f _ _ L). split; [| exact N]. apply canonical_range; [apply sd_formats; exact Hf |]. apply fma_canonical; [apply sd_ok; exact Hf | exact Hc].
Qed.

(** An operand that is not boxed is used as if it were: 2 * 1 + 0 is 2, not NaN. *)
Theorem fma_unboxed_refuted : forall H, host_ok H -> exists a b c, reg a /\ reg b /\ reg c /\
  a_deviates H false None (AFma single false false) 0 0 a b c 0.
Proof.
  intros H HH. exists 0x40000000, 0xffffffff3f800000, 0xffffffff00000000. do 3 (split; [unfold reg; lia |]).
  exists 0xffffffff40000000, 0. split; [| intros [E _]; vm_compute in E; discriminate E].
  assert (E : h_fma H single 0 0x40000000 0x3f800000 0 = (0x40000000, 0)).
  { rewrite (host_case H single 0) by (try exact HH; try (left; reflexivity); try (vm_compute; split; congruence); reflexivity). vm_compute. reflexivity. }
  change (a_exec H false None (AFma single false false) 0 0x40000000 0xffffffff3f800000 0xffffffff00000000 0)
    with (let (v, fl) := (let (v, fl) := h_fma H single 0 0x40000000 0x3f800000 0 in (CanonicalizeNaN single v, Z.lor 0 fl)) in
          Some (Wrote (nanbox 64 32 0 v) fl)).
  rewrite E. vm_compute. reflexivity.
Qed.
Print Assumptions fma_unboxed_refuted.

(** fmadd.d of a signaling NaN raises nothing. *)
Theorem fma_double_signaling_refuted : forall H, exists a b c, reg a /\ reg b /\ reg c /\
  a_deviates H false None (AFma double false false) 0 0 a b c 0.
Proof.
  intros H. exists 0x7ff0000000000001, 0x3ff0000000000000, 0x3ff0000000000000. do 3 (split; [unfold reg; lia |]).
  exists 0x7ff8000000000000, 0. split; [vm_compute; reflexivity | intros [_ E]; vm_compute in E; discriminate E].
Qed.
Print Assumptions fma_double_signaling_refuted.

(** fmadd.d of 0 * 1 + -0 in RDN is +0 instead of -0. *)
Theorem fma_double_zero_rdn_refuted : forall H, exists a b c, reg a /\ reg b /\ reg c /\
  a_deviates H false None (AFma double false false) 2 2 a b c 0.
Proof.
  intros H. exists 0, 0x3ff0000000000000, 0x8000000000000000. do 3 (split; [unfold reg; lia |]).
  exists 0, 0. split; [vm_compute; reflexivity | intros [E _]; vm_compute in E; discriminate E].
Qed.
Print Assumptions fma_double_zero_rdn_refuted.

(** fnmsub.d of -(0 * 1) + -0 is +0 instead of -0, already in RNE. *)
Theorem fnmsub_double_zero_refuted : forall H, exists a b c, reg a /\ reg b /\ reg c /\
  a_deviates H false None (AFma double true false) 0 0 a b c 0.
Proof.
  intros H. exists 0, 0x3ff0000000000000, 0x8000000000000000. do 3 (split; [unfold reg; lia |]).
  exists 0, 0. split; [vm_compute; reflexivity | intros [E _]; vm_compute in E; discriminate E].
Qed.
Print Assumptions fnmsub_double_zero_refuted.

(** fnmadd.d of -(1 * 1) - -1 is -0 instead of +0 in RNE: the rounded sum is negated. *)
Theorem fnmadd_double_cancel_refuted : forall H, host_ok H -> exists a b c, reg a /\ reg b /\ reg c /\
  a_deviates H false None (AFma double true true) 0 0 a b c 0.
Proof.
  intros H HH. exists 0x3ff0000000000000, 0x3ff0000000000000, 0xbff0000000000000. do 3 (split; [unfold reg; lia |]).
  exists 0x8000000000000000, 0. split; [| intros [E _]; vm_compute in E; discriminate E].
  assert (E : h_fma H double 0 0x3ff0000000000000 0x3ff0000000000000 0xbff0000000000000 = (0, 0)).
  { rewrite (host_case H double 0) by (try exact HH; try (right; reflexivity); try (vm_compute; split; congruence); reflexivity). vm_compute. reflexivity. }
  change (a_exec H false None (AFma double true true) 0 0x3ff0000000000000 0x3ff0000000000000 0xbff0000000000000 0)
    with (let r := h_fma H double 0 0x3ff0000000000000 0x3ff0000000000000 0xbff0000000000000 in
          Some (Wrote (nanbox 64 64 0 (CanonicalizeNaN double (neg double (fst r)))) (Z.lor 0 (snd r)))).
  rewrite E. vm_compute. reflexivity.
Qed.
Print Assumptions fnmadd_double_cancel_refuted.

(** fnmadd.d rounds the wrong way in RDN and RUP: -(1 * 1) - 2^-60 in RDN is -1 instead of the next
    number below. *)
Theorem fnmadd_double_directed_refuted : forall H, host_ok H -> exists a b c, reg a /\ reg b /\ reg c /\
  a_deviates H false None (AFma double true true) 2 2 a b c 0.
Proof.
  intros H HH. exists 0x3ff0000000000000, 0x3ff0000000000000, 0x3c30000000000000. do 3 (split; [unfold reg; lia |]).
  exists 0xbff0000000000000, fNX. split; [| intros [E _]; vm_compute in E; discriminate E].
  assert (E : h_fma H double 2 0x3ff0000000000000 0x3ff0000000000000 0x3c30000000000000 = (0x3ff0000000000000, fNX)).
  { rewrite (host_case H double 2) by (try exact HH; try (right; reflexivity); try (vm_compute; split; congruence); vm_compute; reflexivity). vm_compute. reflexivity. }
  change (a_exec H false None (AFma double true true) 2 0x3ff0000000000000 0x3ff0000000000000 0x3c30000000000000 0)
    with (let r := h_fma H double 2 0x3ff0000000000000 0x3ff0000000000000 0x3c30000000000000 in
          Some (Wrote (nanbox 64 64 0 (CanonicalizeNaN double (neg double (fst r)))) (Z.lor 0 (snd r)))).
  rewrite E. vm_compute. reflexivity.
Qed.
Print Assumptions fnmadd_double_directed_refuted.

(** If fma on floats selects the double function, fmadd.s rounds twice: (1 + 2^-12)^2 + 2^-100. *)
Theorem fma_single_wide_refuted : exists a b c, boxed single a = true /\ boxed single b = true /\ boxed single c = true /\
  a_deviates ieee_host true None (AFma single false false) 0 0 a b c 0 /\ a_conforms ieee_host false None (AFma single false false) 0 0 a b c 0.
Proof.
  exists 0xffffffff3f800800, 0xffffffff3f800800, 0xffffffff0d800000. do 3 (split; [reflexivity |]). split.
  - exists 0xffffffff3f801000, fNX. split; [vm_compute; reflexivity | intros [E _]; vm_compute in E; discriminate E].
  - exists 0xffffffff3f801001, fNX. split; vm_compute; [reflexivity | split; reflexivity].
Qed.
Print Assumptions fma_single_wide_refuted.

(** * C72 *)

(** The conversions from integers, modes RNE, RTZ, RDN, RUP. *)
Theorem int_to_float_partial : forall H wide dyn f sg w rm mode a b c old, host_ok H -> f = single \/ f = double ->
  w = 32 \/ w = 64 -> mode_of dyn rm mode -> 0 <= mode <= 3 -> reg old ->
  a_conforms H wide dyn (AOfInt f sg w) rm mode a b c old.
Proof.
  intros H wide dyn f sg w rm mode a b c old HH Hf Hw HM Hm Ho. destruct (mode_resolve dyn rm mode HM) as [Hrm HR].
  eexists. eexists. split; [| split; reflexivity]. unfold a_exec, a_result, a_fmt. destruct Hf as [-> | ->].
  - change (is_fmt single single) with true. cbv iota. apply (of_int_s H dyn sg w rm mode a old); assumption.
  - change (is_fmt double single) with false. cbv iota. apply (of_int_d H dyn sg w rm mode a old); assumption.
Qed.
Print Assumptions int_to_float_partial.

Example int_to_float_case :
  a_exec x86_host false None (AOfInt single true 64) 3 0xfffffffffefffffd 0 0 0 = Some (Wrote 0xffffffffcb800001 fNX) /\
  a_exec x86_host false None (AOfInt single false 64) 0 0xffffffffffffffff 0 0 0 = Some (Wrote 0xffffffff5f800000 fNX) /\
  a_exec x86_host false None (AOfInt double true 32) 0 0xffffffff80000000 0 0 0 = Some (Wrote 0xc1e0000000000000 0).
Proof. repeat split; vm_compute; reflexivity. Qed.

(** fcvt.s.d, for operands other than signaling NaNs (fcvt.d.s: single_widening_exact_partial). *)
Theorem narrowing_partial : forall H wide dyn rm mode a b c old, host_ok H -> mode_of dyn rm mode -> 0 <= mode <= 3 ->
  reg a -> reg old -> is_snan double a = false ->
  a_conforms H wide dyn (ANarrow double single) rm mode a b c old.
Proof.
  intros H wide dyn rm mode a b c old HH HM Hm Ha Ho SN. destruct (mode_resolve dyn rm mode HM) as [Hrm HR].
  eexists. eexists. split; [| split; reflexivity]. unfold a_exec, a_result, a_fmt. rewrite unbox_double by exact Ha.
  apply narrow_correct; assumption.
Qed.
Print Assumptions narrowing_partial.

(** The largest double below 2^-126 + rounding up is normal; 1e-310 underflows; a quiet NaN. *)
Example narrowing_case :
  a_exec x86_host false None (ANarrow double single) 0 0x380fffffffffffff 0 0 0 = Some (Wrote 0xffffffff00800000 fNX) /\
  a_exec x86_host false None (ANarrow double single) 3 1 0 0 0 = Some (Wrote 0xffffffff00000001 (fUF + fNX)) /\
  a_exec x86_host false None (ANarrow double single) 0 0xfff8000000000001 0 0 0 = Some (Wrote 0xffffffff7fc00000 0).
Proof. repeat split; vm_compute; reflexivity. Qed.

(** A signaling NaN is converted without raising invalid. *)
Theorem narrowing_signaling_refuted : forall H, exists a, reg a /\ a_deviates H false None (ANarrow double single) 0 0 a 0 0 0.
Proof.
  intros H. exists 0x7ff0000000000001. split; [unfold reg; lia |]. exists 0xffffffff7fc00000, 0.
  split; [vm_compute; reflexivity | intros [_ E]; vm_compute in E; discriminate E].
Qed.
Print Assumptions narrowing_signaling_refuted.

(** In RMM a tie goes to even: 2^24 + 1 becomes 2^24. *)
Theorem rmm_int_refuted : forall H, host_ok H -> exists a, reg a /\ a_deviates H false None (AOfInt single true 32) 4 4 a 0 0 0.
Proof.
  intros H HH. exists 0x1000001. split; [unfold reg; lia |]. exists 0xffffffff4b800000, fNX.
  split; [| intros [E _]; vm_compute in E; discriminate E].
  assert (E : h_int H single 0 0x1000001 = (0x4b800000, fNX)).
  { destruct (HH single 0 0 0 0 (or_introl eq_refl) ltac:(lia)) as (_ & _ & _ & _ & _ & _ & _ & L); try (split; [lia | reflexivity]).
    specialize (L 0x1000001 ltac:(lia)). apply (like_number single) in L; [rewrite L; vm_compute; reflexivity |]. apply int_number. apply sd_ok. left. reflexivity. }
  change (a_exec H false None (AOfInt single true 32) 4 0x1000001 0 0 0)
    with (let (v, fl) := h_int H single 0 0x1000001 in
          let v := if IsNaN single v && SignBit single v then Z.land v (2 ^ (width single - 1) - 1) else v in
          Some (Wrote (nanbox 64 32 0 v) fl)).
  rewrite E. vm_compute. reflexivity.
Qed.
Print Assumptions rmm_int_refuted.
