(** Half-precision conversions (C77) and arithmetic (C78). *)
From Coq Require Import ZArith Bool List Lia.
From Verif Require Import Bits IeeeSpec FpSpec IntModel FpModel FpProofs FpCvt FpWiden FpHalf FpExec FpProps FarithSpec FarithModel FarithProofs FarithExec FarithProps
  RoundProofs RoundTwice HalfSpec HalfModel HalfProofs HalfConv HalfArith HalfExec SqrtWide.
Import ListNotations.
Local Open Scope Z_scope.

(** * The rounding of the specification *)

(** [round_to], which all of C70-C72, C77, C78 rest on, chooses between the two neighbouring numbers of
    the format: [lo] is the pattern of the largest number not above |x| = p / r in magnitude (lengths in quanta),
    the result [lo] or [lo + 1]; the nearer one in RNE (on a tie the even one), the one
    towards zero in RTZ, below in RDN, above in RUP; results beyond the largest finite number overflow. *)
Theorem rounding_is_to_a_neighbour : forall f rm s p r, In f formats -> 0 <= rm <= 3 -> 0 < p -> 0 < r ->
  let x := p * 2 ^ quantum f in
  fst (round_to f rm s p r) <> infinity f s -> fst (round_to f rm s p r) <> infinity f s - 1 ->
  exists lo, 0 <= lo /\ lo + 1 < (2 ^ ew f - 1) * 2 ^ sw f /\
    magnitude f (with_sign f s lo) * r <= x < magnitude f (with_sign f s (lo + 1)) * r /\
    let dl := x - magnitude f (with_sign f s lo) * r in
    let dh := magnitude f (with_sign f s (lo + 1)) * r - x in
    fst (round_to f rm s p r) =
      with_sign f s
        (if dl =? 0 then lo else
         match rm with
         | 0 => if dl <? dh then lo else if dh <? dl then lo + 1 else if Z.even lo then lo else lo + 1
         | 1 => lo
         | 2 => if s then lo + 1 else lo
         | _ => if s then lo else lo + 1 end) /\
    (snd (round_to f rm s p r) = 0 <-> dl = 0).
Proof.
  intros f rm s p r Hf Hrm Hp Hr x NI NL. pose proof (formats_ok f Hf) as Ok.
  destruct (round_to_char f rm s p r Ok Hp Hr) as (lo & tiny & HL & B & E & _). fold x in B, E. cbv zeta in E.
  destruct (top_range f Ok) as (T1 & T2 & T3). pose proof (val_step f lo Ok HL) as ST.
  set (u := goes_up rm s (val f lo) (val f (lo + 1)) r x (Z.odd lo)) in *.
  assert (TT : top f = (2 ^ ew f - 1) * 2 ^ sw f) by reflexivity.
  assert (PB : (if u then lo + 1 else lo) < top f - 1).
  { destruct (Z.le_gt_cases (top f) (if u then lo + 1 else lo)) as [L | L].
    - exfalso. rewrite E in NI, NL. unfold packed in NI, NL. replace (top f <=? (if u then lo + 1 else lo)) with true in NI, NL by (symmetry; apply Z.leb_le; exact L).
      cbn [fst] in NI, NL. unfold infinity in NI, NL. rewrite <- TT in NI, NL. unfold with_sign in NI, NL. clear - NI NL.
      destruct (match rm with 1 => false | 2 => s | 3 => negb s | _ => true end); [apply NI; reflexivity | apply NL; ring].
    - assert (NE : (if u then lo + 1 else lo) <> top f - 1); [| clear - L NE; lia]. intros EQ. apply NL. rewrite E. unfold packed. rewrite EQ.
      replace (top f <=? top f - 1) with false by (symmetry; apply Z.leb_gt; clear; lia). cbn [fst]. unfold infinity, with_sign. rewrite <- TT. ring. }
  assert (LT : lo + 1 < top f) by (clear - PB; destruct u; lia).
  exists lo. split; [exact HL |]. split; [rewrite <- TT; exact LT |]. rewrite !val_magnitude by (try exact Ok; clear - HL LT T2; lia). split; [exact B |].
  rewrite E. unfold packed. replace (top f <=? (if u then lo + 1 else lo)) with false by (symmetry; apply Z.leb_gt; clear - PB; lia). cbn [fst snd].
  split.
  - f_equal. unfold u, goes_up. set (a := val f lo) in *. set (b := val f (lo + 1)) in *. clearbody a b. rewrite <- Z.negb_odd.
    destruct (Z.eqb_spec (x - a * r) 0) as [D | D].
    + assert (XE : x = a * r) by (clear - D; lia). destruct rm as [| [[| | ] | [| |] |] |]; try (clear - Hrm; lia); rewrite XE.
      * replace ((a + b) * r <? 2 * (a * r)) with false by (symmetry; apply Z.ltb_ge; clear - ST Hr; nia).
        replace ((a + b) * r =? 2 * (a * r)) with false by (symmetry; apply Z.eqb_neq; clear - ST Hr; nia). reflexivity.
      * rewrite Z.ltb_irrefl, andb_false_r. reflexivity.
      * rewrite Z.ltb_irrefl, andb_false_r. reflexivity.
    + assert (AX : a * r < x) by (clear - D B; lia). destruct rm as [| [[| | ] | [| |] |] |]; try (clear - Hrm; lia).
      * replace ((a + b) * r) with (a * r + b * r) by ring. set (ar := a * r) in *. set (br := b * r) in *. clearbody ar br. clear.
        destruct (Z.ltb_spec (ar + br) (2 * x)), (Z.eqb_spec (ar + br) (2 * x)), (Z.ltb_spec (x - ar) (br - x)), (Z.ltb_spec (br - x) (x - ar)), (Z.odd lo); try lia; reflexivity.
      * replace (a * r <? x) with true by (symmetry; apply Z.ltb_lt; exact AX). destruct s; reflexivity.
      * replace (a * r <? x) with true by (symmetry; apply Z.ltb_lt; exact AX). destruct s; reflexivity.
  - destruct (Z.eqb_spec (val f lo * r) x) as [EQ | NE].
    + split; [intros _; clear - EQ; lia | reflexivity].
    + split; [destruct tiny; discriminate | intros Q; exfalso; apply NE; clear - Q; lia].
Qed.
Print Assumptions rounding_is_to_a_neighbour.

Example rounding_case : let q := fst (round_to half 0 false 1 3) in q = 0x3555 /\ q <> infinity half false /\ q <> infinity half false - 1 /\
  fst (round_to half 3 false 1 3) = 0x3556.
Proof. vm_compute. repeat split; discriminate. Qed.

(** * C77: conversions to half precision *)

Lemma nearly_flags : forall s (out spec : Z * Z), nearly half s out spec -> fst out = fst spec /\ flags_but_underflow (fst out) (snd out) (snd spec).
Proof.
  intros s out spec [E [F | (V & F1 & F2)]]; (split; [exact E |]); [left; exact F | right].
  split; [rewrite V; destruct s; [right | left]; reflexivity |]. split; [exact F1 | exact F2].
Qed.
Lemma half_range : forall x, canonical half x -> 0 <= x < 65536.
Proof. intros x C. apply (canonical_range half x in_half C). Qed.
Lemma cvt_half_canonical : forall f rm a, sd f -> canonical half (fst (ieee_cvt f half rm a)).
Proof.
  intros f rm a Hf. unfold canonical. destruct (is_nan f a) eqn:N; [right; unfold ieee_cvt; rewrite N; reflexivity |].
  left. apply cvt_number; [apply sd_ok; exact Hf | exact ok_half | exact N].
Qed.
Lemma box_low : forall v, 0 <= v < 65536 -> wrap 16 (box half v) = v.
Proof. intros v Hv. unfold box, wrap. change (width half) with 16. rewrite Z.add_comm, Z.mod_add by lia. apply Z.mod_small. exact Hv. Qed.

(** fcvt.h.s and fcvt.h.d, of all register contents, in the modes RNE, RTZ, RDN, RUP, on every host that
    follows IEEE 754: correctly rounded, boxed, with the right flags except for a spurious UF.  Missing:
    that flag and RMM (both refuted below). *)
Theorem half_narrowing_partial : forall H wide dyn f rm mode a b c old, host_ok H -> f = single \/ f = double ->
  mode_of dyn rm mode -> 0 <= mode <= 3 -> reg a -> reg old ->
  exists d fl, half_exec H wide dyn (ANarrow f half) rm a b c old = Some (Wrote d fl) /\ half_conv_correct (ANarrow f half) mode a d fl.
Proof.
  intros H wide dyn f rm mode a b c old HH Hf HM Hm Ha Ho. destruct (mode_resolve dyn rm mode HM) as [Hrm HR].
  pose proof (sd_formats f Hf) as Hin. pose proof (unbox_range f a Hin) as Ra.
  pose proof (to_half_nearly H f mode (unbox f a) HH Hf Hm Ra) as N. apply nearly_flags in N. destruct N as [N1 N2].
  pose proof (half_range _ (cvt_half_canonical f mode (unbox f a) Hf)) as R.
  cbn [half_exec]. unfold zfh_narrow. rewrite (source_read f _ [a; rm] 0 a Hin eq_refl Ha) by (left; apply canonical_eq; exact Hin).
  rewrite (rm_read [a; rm] 1 rm eq_refl Hrm). cbn [bind]. rewrite HR.
  assert (SF : Z.lor (flag (IsSNaN f (unbox f a))) (snd (to_half H f mode (unbox f a))) = snd (to_half H f mode (unbox f a))).
  { rewrite IsSNaN_eq by (apply sd_ok; exact Hf). destruct (is_snan f (unbox f a)) eqn:S; [| reflexivity].
    assert (NA : is_nan f (unbox f a) = true) by (unfold is_snan in S; apply andb_true_iff in S; apply S).
    rewrite to_half_special by (try assumption; left; exact NA). unfold ieee_cvt. rewrite NA, S. reflexivity. }
  destruct (to_half H f mode (unbox f a)) as [v fl]. cbn [fst snd] in *. rewrite SF. rewrite <- N1 in R.
  eexists. eexists. split; [reflexivity |]. split; cbn [a_result].
  - rewrite <- N1. exact (nanbox_z_box half old v in_half Ho R).
  - change 16 with (width half) at 2. rewrite (nanbox_z_box half old v in_half Ho R). rewrite box_low by exact R. exact N2.
Qed.
Print Assumptions half_narrowing_partial.

(** 1/3 in single precision, in RUP. *)
Example half_narrowing_case : reg 0xffffffff3eaaaaab /\ mode_of (Some 3) 7 3 /\ host_ok x86_host /\
  half_exec x86_host false (Some 3) (ANarrow single half) 7 0xffffffff3eaaaaab 0 0 0 = Some (Wrote 0xffffffffffff3556 fNX).
Proof. split; [unfold reg; lia |]. split; [split; [lia | reflexivity] |]. split; [exact x86_host_is_ok |]. vm_compute. reflexivity. Qed.

Lemma half_witness : forall H f rm mode a v fl, host_ok H -> sd f -> mode_of None rm mode -> 0 <= mode <= 4 -> reg a -> boxed f a = true -> is_snan f (unbox f a) = false ->
  to_half ieee_host f (if mode =? 4 then 0 else mode) (unbox f a) = (v, fl) -> 0 <= v < 65536 ->
  half_exec H false None (ANarrow f half) rm a 0 0 0 = Some (Wrote (box half v) fl).
Proof.
  intros H f rm mode a v fl HH Hf HM Hm Ha BX SN E R. destruct (mode_resolve None rm mode HM) as [Hrm HR]. pose proof (sd_formats f Hf) as Hin. pose proof (unbox_range f a Hin) as Ra.
  cbn [half_exec]. unfold zfh_narrow. rewrite (source_read f _ [a; rm] 0 a Hin eq_refl Ha) by (left; apply canonical_eq; exact Hin).
  rewrite (rm_read [a; rm] 1 rm eq_refl Hrm). cbn [bind]. rewrite HR.
  assert (E' : to_half H f mode (unbox f a) = (v, fl)).
  { rewrite <- E. destruct (Z.eqb_spec mode 4) as [-> | N4]; [rewrite to_half_rmm |]; apply to_half_host; try assumption; try exact ieee_host_is_ok; clear - Hm N4 || clear; lia. }
  rewrite E', IsSNaN_eq, SN by (apply sd_ok; exact Hf). cbn [flag]. rewrite Z.lor_0_l.
  change 16 with (width half). rewrite nanbox_z_box; [reflexivity | exact in_half | unfold reg; clear; lia | exact R].
Qed.

(** The largest single below 2^-14 that rounds up to it raises UF although, rounded to 11 bits with
    unbounded exponent range, it would be 2^-14 itself. *)
Theorem half_underflow_refuted : forall H, host_ok H -> exists a d fl, reg a /\
  half_exec H false None (ANarrow single half) 0 a 0 0 0 = Some (Wrote d fl) /\ ~ a_correct (ANarrow single half) 0 a 0 0 d fl.
Proof.
  intros H HH. exists 0xffffffff387ffc00, (box half 0x0400), (Z.lor fUF fNX). split; [unfold reg; lia |]. split.
  - apply (half_witness H single 0 0); try assumption; try (vm_compute; reflexivity); [left; reflexivity | split; [lia | reflexivity] | lia | unfold reg; lia | lia].
  - intros [_ E]. vm_compute in E. discriminate E.
Qed.
Print Assumptions half_underflow_refuted.

(** RMM is treated as RNE: 1 + 2^-11 becomes 1. *)
Theorem half_narrowing_rmm_refuted : forall H, host_ok H -> exists a d fl, reg a /\
  half_exec H false None (ANarrow single half) 4 a 0 0 0 = Some (Wrote d fl) /\ ~ half_conv_correct (ANarrow single half) 4 a d fl.
Proof.
  intros H HH. exists 0xffffffff3f801000, (box half 0x3c00), fNX. split; [unfold reg; lia |]. split.
  - apply (half_witness H single 4 4); try assumption; try (vm_compute; reflexivity); [left; reflexivity | split; [lia | reflexivity] | lia | unfold reg; lia | lia].
  - intros [E _]. vm_compute in E. discriminate E.
Qed.
Print Assumptions half_narrowing_rmm_refuted.

(** fcvt.h.w, wu, l, lu of all integers, in the four modes: right in value, boxing and flags, although the
    integer is first rounded to single precision.  Missing: RMM. *)
Theorem half_of_int_partial : forall H wide dyn sg w rm mode a b c old, host_ok H -> w = 32 \/ w = 64 ->
  mode_of dyn rm mode -> 0 <= mode <= 3 -> reg old ->
  exists d fl, half_exec H wide dyn (AOfInt half sg w) rm a b c old = Some (Wrote d fl) /\ a_correct (AOfInt half sg w) mode a b c d fl.
Proof.
  intros H wide dyn sg w rm mode a b c old HH Hw HM Hm Ho. destruct (mode_resolve dyn rm mode HM) as [Hrm HR]. destruct (int_arg_wrap sg w a Hw) as [E R].
  cbn [half_exec]. unfold zfh_of_int. unfold get at 1. cbn [nth_error option_map bind]. rewrite (rm_read [a; rm] 1 rm eq_refl Hrm). cbn [bind]. rewrite HR.
  rewrite host_rm_id by exact Hm. rewrite (int_half H mode _ HH Hm R), E. unfold a_correct. cbn [a_result a_fmt].
  set (n := if sg then sgn w a else wrap w a). pose proof (half_range _ (or_introl (int_number half mode n ok_half))) as B.
  destruct (ieee_of_int half mode n) as [v fl]. cbn [fst snd] in *. eexists. eexists. split; [reflexivity |]. split; [| reflexivity].
  exact (nanbox_z_box half old v in_half Ho B).
Qed.
Print Assumptions half_of_int_partial.

(** 65520 - 1 in RNE, and 2^40 + 2^29 + 1, which single precision cannot represent. *)
Example half_of_int_case : mode_of None 0 0 /\ half_exec x86_host false None (AOfInt half true 64) 0 65519 0 0 0 = Some (Wrote (box half 0x7bff) fNX) /\
  half_exec x86_host false None (AOfInt half true 64) 1 (2 ^ 40 + 2 ^ 29 + 1) 0 0 0 = Some (Wrote (box half 0x7bff) (fOF + fNX)).
Proof. split; [split; [lia | reflexivity] |]. vm_compute. split; reflexivity. Qed.

Theorem half_of_int_rmm_refuted : forall H, host_ok H -> exists a d fl, reg a /\
  half_exec H false None (AOfInt half true 32) 4 a 0 0 0 = Some (Wrote d fl) /\ ~ a_correct (AOfInt half true 32) 4 a 0 0 d fl.
Proof.
  intros H HH. exists 2049, (box half 0x6800), fNX. split; [unfold reg; lia |]. split; [| intros [E _]; vm_compute in E; discriminate E].
  assert (E : to_half H single 4 (fst (h_int H single 0 2049)) = (0x6800, fNX)).
  { rewrite to_half_rmm, int_half by (try assumption; lia). vm_compute. reflexivity. }
  change (half_exec H false None (AOfInt half true 32) 4 2049 0 0 0) with (let (v, fl) := to_half H single 4 (fst (h_int H single 0 2049)) in Some (Wrote (nanbox_z 64 16 0 v) fl)).
  rewrite E. vm_compute. reflexivity.
Qed.
Print Assumptions half_of_int_rmm_refuted.

(** * C78: arithmetic *)

Lemma quiet_canonical : forall f x, sd f -> canonical f x -> is_snan f x = false.
Proof. intros f x Hf [[_ N] | ->]; [unfold is_snan; rewrite N; reflexivity | destruct Hf as [-> | ->]; reflexivity]. Qed.
Lemma quiet_nan_sign : forall f r, sd f -> canonical f (fst r) -> is_snan f (fst (nan_sign f r)) = false.
Proof.
  intros f r Hf C. unfold nan_sign. destruct (is_nan f (fst r)) eqn:N; [| apply quiet_canonical; assumption].
  destruct (flip_facts f (fst r) (sd_ok f Hf) (canonical_range f _ (sd_formats f Hf) C)) as (_ & _ & _ & _ & _ & S & _). cbn [fst]. rewrite S. apply quiet_canonical; assumption.
Qed.
Example ieee_host_is_quiet : host_quiet ieee_host.
Proof.
  intros f rm a b c Hf Hr Ha Hb Hc. destruct (all_canonical f rm a b c Hf Ha Hb Hc) as (C1 & C2 & C3 & C4 & C5 & C6 & _).
  repeat split; apply quiet_canonical; assumption.
Qed.
Example x86_host_is_quiet : host_quiet x86_host.
Proof.
  intros f rm a b c Hf Hr Ha Hb Hc. destruct (all_canonical f rm a b c Hf Ha Hb Hc) as (C1 & C2 & C3 & C4 & C5 & C6 & _).
  repeat split; apply quiet_nan_sign; assumption.
Qed.

Lemma half_exec_binary : forall dyn op rm mode a b old v fl, 0 <= rm < 2 ^ 32 -> resolve dyn rm = Some mode -> reg a -> reg b ->
  op mode (unbox half a) (unbox half b) = (v, fl) -> canonical half v ->
  binary_float_nanbox dyn half op [a; b; rm] old = Some (Wrote (0xffff000000000000 + v) fl).
Proof.
  intros dyn op rm mode a b old v fl Hrm HR Ha Hb E C. unfold binary_float_nanbox.
  rewrite (source_read half _ [a; b; rm] 0 a in_half eq_refl Ha) by (left; apply canonical_eq; exact in_half).
  rewrite (source_read half _ [a; b; rm] 1 b in_half eq_refl Hb) by (left; apply canonical_eq; exact in_half).
  rewrite (rm_read [a; b; rm] 2 rm eq_refl Hrm). cbn [bind]. rewrite HR, E.
  assert (V : (if IsNaN half v then kCanonicalNaN half else v) = v).
  { rewrite IsNaN_eq by exact ok_half. destruct C as [[_ N] | ->]; [rewrite N; reflexivity | reflexivity]. }
  rewrite V. change (width half) with 16. rewrite nanbox_half by (apply half_range; exact C). reflexivity.
Qed.
Lemma half_exec_unary : forall dyn op rm mode a old v fl, 0 <= rm < 2 ^ 32 -> resolve dyn rm = Some mode -> reg a ->
  op mode (unbox half a) = (v, fl) -> canonical half v ->
  unary_float_nanbox dyn 64 16 16 (kCanonicalNaN half) half op [a; rm] old = Some (Wrote (0xffff000000000000 + v) fl).
Proof.
  intros dyn op rm mode a old v fl Hrm HR Ha E C. unfold unary_float_nanbox.
  rewrite (source_read half _ [a; rm] 0 a in_half eq_refl Ha) by (left; apply canonical_eq; exact in_half).
  rewrite (rm_read [a; rm] 1 rm eq_refl Hrm). cbn [bind]. rewrite HR, E.
  assert (V : IsNaN half v && SignBit half v = false).
  { rewrite IsNaN_eq by exact ok_half. destruct C as [[_ N] | ->]; [rewrite N; reflexivity | reflexivity]. }
  rewrite V, nanbox_half by (apply half_range; exact C). reflexivity.
Qed.
Lemma low_half : forall v, 0 <= v < 65536 -> wrap 16 (0xffff000000000000 + v) = v.
Proof.
  intros v Hv. unfold wrap. change 0xffff000000000000 with (0xffff00000000 * 2 ^ 16). rewrite Z.add_comm, Z.mod_add by lia. apply Z.mod_small. exact Hv.
Qed.

(** fadd.h, fsub.h, fmul.h, fdiv.h, fsqrt.h of all register contents, in the four modes, on every host that follows
    IEEE 754 and returns quiet NaNs: although computed in single precision and rounded twice, the low 16
    bits are the correctly rounded result, and the flags are right except for the spurious UF.  Missing:
    the upper bits (refuted below), RMM. *)
Theorem half_arith_partial : forall H wide dyn I rm mode a b c old, host_ok H -> host_quiet H ->
  In I [AAdd half; ASub half; AMul half; ADiv half; ASqrt half] -> mode_of dyn rm mode -> 0 <= mode <= 3 -> reg a -> reg b ->
  exists d fl, half_exec H wide dyn I rm a b c old = Some (Wrote d fl) /\ half_low_correct I mode a b c d fl.
Proof.
  intros H wide dyn I rm mode a b c old HH HQ HI HM Hm Ha Hb. destruct (mode_resolve dyn rm mode HM) as [Hrm HR].
  pose proof (unbox_range half a in_half) as Ra. pose proof (unbox_range half b in_half) as Rb. change (2 ^ width half) with 65536 in Ra, Rb.
  destruct (widened_from _ Ra) as [Wa Fa]. destruct (widened_from _ Rb) as [Wb Fb].
  set (x := fst (from_half single (unbox half a))) in *. set (y := fst (from_half single (unbox half b))) in *.
  assert (Rx : 0 <= x < 2 ^ width single) by apply Wa. assert (Ry : 0 <= y < 2 ^ width single) by apply Wb.
  destruct (HH single mode x y y (or_introl eq_refl) Hm Rx Ry Ry) as (L1 & L2 & L3 & L4 & L5 & _).
  destruct (HQ single mode x y y (or_introl eq_refl) Hm Rx Ry Ry) as (Q1 & Q2 & Q3 & Q4 & _ & Q5).
  assert (GEN : forall op spec, like single (op single mode x y) (spec single mode x y) -> is_snan single (fst (op single mode x y)) = false ->
    matching (fun n d => n <> 0 -> safe mode (Z.abs n) d) mode (Z.lor (sig_flag (unbox half a)) (sig_flag (unbox half b))) (spec single mode x y) (spec half mode (unbox half a) (unbox half b)) ->
    canonical half (fst (spec half mode (unbox half a) (unbox half b))) ->
    exists d fl, binary_float_nanbox dyn half (half_binary H op) [a; b; rm] old = Some (Wrote d fl) /\
      wrap 16 d = fst (spec half mode (unbox half a) (unbox half b)) /\ flags_but_underflow (wrap 16 d) fl (snd (spec half mode (unbox half a) (unbox half b)))).
  { intros op spec L Q M C. destruct (tail_nearly H mode _ (op single mode x y) _ _ HH Hm L (fun _ => Q) M) as [s N]. apply nearly_flags in N. destruct N as [N1 N2].
    pose proof (half_binary_tail H op mode (unbox half a) (unbox half b) Hm) as E. fold x y in E. rewrite Fa, Fb in E.
    destruct (tail H mode _ _) as [v fl] in *. cbn [fst snd] in N1, N2. rewrite <- N1 in C. exists (0xffff000000000000 + v), fl.
    split; [apply (half_exec_binary dyn _ rm mode); assumption |]. rewrite low_half by (apply half_range; exact C). split; [exact N1 | exact N2]. }
  unfold half_low_correct. destruct HI as [<- | [<- | [<- | [<- | [<- | []]]]]]; cbn [half_exec a_result].
  - apply GEN; [exact L1 | exact Q1 | apply add_matching; assumption | apply add_canonical; [exact ok_half | exact Ra | exact Rb]].
  - apply GEN; [exact L2 | exact Q2 | | apply sub_canonical; [exact ok_half | exact Ra | exact Rb]].
    unfold ieee_sub. replace (sig_flag (unbox half b)) with (sig_flag (flip half (unbox half b))); [apply add_matching; [exact Wa | apply widened_flip; exact Wb] |].
    unfold sig_flag. destruct (flip_facts half (unbox half b) ok_half Rb) as (_ & _ & _ & _ & _ & S & _). rewrite S. reflexivity.
  - apply GEN; [exact L3 | exact Q3 | apply mul_matching; assumption | apply mul_canonical; exact ok_half].
  - apply GEN; [exact L4 | exact Q4 | apply div_matching; assumption | apply div_canonical; exact ok_half].
  - pose proof (sqrt_canonical half mode (unbox half a) ok_half Ra) as C.
    destruct (tail_nearly H mode _ (h_sqrt H single mode x) _ _ HH Hm L5 (fun _ => Q5) (sqrt_matching mode _ x Wa)) as [s N]. apply nearly_flags in N. destruct N as [N1 N2].
    pose proof (half_unary_tail H (h_sqrt H) mode (unbox half a) Hm) as E. fold x in E. rewrite Fa in E.
    destruct (tail H mode _ _) as [v fl] in *. cbn [fst snd] in N1, N2. rewrite <- N1 in C. exists (0xffff000000000000 + v), fl.
    split; [apply (half_exec_unary dyn _ rm mode); assumption |]. rewrite low_half by (apply half_range; exact C). split; [exact N1 | exact N2].
Qed.
Print Assumptions half_arith_partial.

(** 1 / 3; 60000 + 60000; a signaling NaN; the square roots of 2 and of -1. *)
Example half_arith_case : host_ok x86_host /\ host_quiet x86_host /\ reg (box half 0x3c00) /\
  half_exec x86_host false None (ADiv half) 0 (box half 0x3c00) (box half 0x4200) 0 0 = Some (Wrote 0xffff000000003555 fNX) /\
  half_exec x86_host false None (AAdd half) 0 (box half 0x7b53) (box half 0x7b53) 0 0 = Some (Wrote 0xffff000000007c00 (fOF + fNX)) /\
  half_exec x86_host false None (AMul half) 0 (box half 0x7d00) (box half 0x7b53) 0 0 = Some (Wrote 0xffff000000007e00 fNV) /\
  half_exec x86_host false None (ASqrt half) 0 (box half 0x4000) 0 0 0 = Some (Wrote 0xffff000000003da8 fNX) /\
  half_exec x86_host false None (ASqrt half) 0 (box half 0xbc00) 0 0 0 = Some (Wrote 0xffff000000007e00 fNV).
Proof. split; [exact x86_host_is_ok |]. split; [exact x86_host_is_quiet |]. split; [unfold reg, box; cbn; lia |]. vm_compute. repeat split. Qed.

Lemma masked : forall v, 0 <= Z.land v (2 ^ (width half - 1) - 1) < 65536.
Proof. intros v. change (2 ^ (width half - 1) - 1) with (Z.ones 15). rewrite Z.land_ones by lia. pose proof (Z.mod_pos_bound v (2 ^ 15) ltac:(lia)). lia. Qed.
Lemma wrote_inj : forall d d' fl fl', Some (Wrote d fl) = Some (Wrote d' fl') -> d' = d.
Proof. intros d d' fl fl' E. injection E as -> _. reflexivity. Qed.

(** No result of these instructions, nor of fsqrt.h and the fused multiply-adds, is boxed: read as a half
    precision operand it is the canonical NaN. *)
Theorem half_arith_unboxed_refuted : forall H wide dyn I rm a b c old d fl,
  In I [AAdd half; ASub half; AMul half; ADiv half; ASqrt half] \/ (exists np na, I = AFma half np na) ->
  half_exec H wide dyn I rm a b c old = Some (Wrote d fl) -> unbox half (wrap 64 d) = canonical_nan half /\
  forall v, 0 <= v < 65536 -> d <> box half v.
Proof.
  assert (NB : forall old v, 0 <= v < 65536 -> unbox half (wrap 64 (nanbox 64 16 old v)) = canonical_nan half /\ forall v', 0 <= v' < 65536 -> nanbox 64 16 old v <> box half v').
  { intros old v Hv. rewrite nanbox_half by exact Hv. split.
    - unfold unbox, boxed. change (2 ^ width half) with 65536. change (2 ^ (FLEN - width half) - 1) with 0xffffffffffff. rewrite wrap_id by (unfold inw; lia).
      replace ((0xffff000000000000 + v) / 65536) with 0xffff00000000; [reflexivity |].
      symmetry. change 0xffff000000000000 with (0xffff00000000 * 65536). rewrite Z.add_comm, Z.div_add by lia. rewrite Z.div_small by lia. reflexivity.
    - intros v' Hv'. unfold box. cbn [ew sw half width FLEN]. change ((2 ^ (FLEN - width half) - 1) * 2 ^ width half) with 0xffffffffffff0000. lia. }
  assert (TH : forall H0 rm0 z, 0 <= fst (to_half H0 single rm0 z) < 65536).
  { intros H0 rm0 z. unfold to_half. destruct (IsNaN single z); [vm_compute; split; congruence |].
    destruct (IsInf single z).
    { cbn [fst]. assert (B : 0 <= Z.land (Z.shiftr z (width single - 1)) 1 < 2) by (change 1 with (Z.ones 1); rewrite Z.land_ones by lia; apply Z.mod_pos_bound; lia).
      set (t := Z.land _ 1) in *. assert (T : t = 0 \/ t = 1) by lia. clearbody t. destruct T as [-> | ->]; vm_compute; split; congruence. }
    destruct ((z =? 0) || (z =? Z.shiftl 1 (width single - 1))); [cbn [fst]; apply (Z.mod_pos_bound _ 65536); lia |].
    cbv zeta. match goal with |- context [let '(x, y) := ?E in _] => destruct E end. cbn [fst]. apply (Z.mod_pos_bound _ 65536). lia. }
  intros H wide dyn I rm a b c old d fl HI E.
  assert (BIN : forall op, binary_float_nanbox dyn half (half_binary H op) [a; b; rm] old = Some (Wrote d fl) -> exists v, 0 <= v < 65536 /\ d = nanbox 64 16 old v).
  { intros op. unfold binary_float_nanbox. destruct (boxed_source _ _ _ _ 0); [| discriminate]. destruct (boxed_source _ _ _ _ 1); [| discriminate].
    destruct (get _ 2 32); [| discriminate]. cbn [bind]. destruct (resolve dyn z1) as [m |]; [| discriminate]. unfold half_binary.
    destruct (from_half single z), (from_half single z0). destruct (op single (host_rm m) z2 z4) as [t f3]. pose proof (TH H m t) as B. destruct (to_half H single m t) as [v f4].
    intros Q. apply wrote_inj in Q. subst d. eexists. split; [| reflexivity]. destruct (IsNaN half v); [vm_compute; split; congruence | exact B]. }
  assert (GOAL : exists v, 0 <= v < 65536 /\ d = nanbox 64 16 old v).
  { destruct HI as [[<- | [<- | [<- | [<- | [<- | []]]]]] | (np & na & ->)]; cbn [half_exec] in E; try (eapply BIN; exact E).
    - unfold unary_float_nanbox in E. destruct (boxed_source _ _ _ _ 0); [| discriminate]. destruct (get _ 1 32); [| discriminate]. cbn [bind] in E.
      destruct (resolve dyn z0) as [m |]; [| discriminate]. unfold half_unary in E. destruct (from_half single z). destruct (h_sqrt H single (host_rm m) z1) as [t f3].
      pose proof (TH H m t) as B. destruct (to_half H single m t) as [v f4]. apply wrote_inj in E. subst d. eexists. split; [| reflexivity].
      destruct (IsNaN half v && SignBit half v); [apply masked | exact B].
    - unfold ternary_float_nanbox in E. destruct (get _ 0 _); [| discriminate]. destruct (get _ 1 _); [| discriminate]. destruct (get _ 2 _); [| discriminate]. destruct (get _ 3 _); [| discriminate].
      cbn [bind] in E. destruct (resolve dyn z2) as [m |]; [| discriminate]. unfold half_fma in E. destruct (from_half single z), (from_half single z0), (from_half single z1).
      destruct (fma_call _ _ _ _ _ _ _) as [t f4]. pose proof (TH H m t) as B. destruct (to_half H single m t) as [v f5]. apply wrote_inj in E. subst d. eexists. split; [exact B | reflexivity]. }
  destruct GOAL as (v & Hv & ->). apply NB. exact Hv.
Qed.
Print Assumptions half_arith_unboxed_refuted.

Example half_arith_unboxed_case : exists d fl, half_exec x86_host false None (AAdd half) 0 (box half 0x3c00) (box half 0x3c00) 0 0 = Some (Wrote d fl) /\
  wrap 16 d = 0x4000 /\ unbox half d = 0x7e00.
Proof. eexists. eexists. split; [vm_compute; reflexivity |]. vm_compute. split; reflexivity. Qed.

(** Ties in RMM: 1 + 2^-11 is 1. *)
Theorem half_arith_rmm_refuted : forall H, host_ok H -> exists a b d fl, reg a /\ reg b /\
  half_exec H false None (AAdd half) 4 a b 0 0 = Some (Wrote d fl) /\ ~ half_low_correct (AAdd half) 4 a b 0 d fl.
Proof.
  intros H HH. exists (box half 0x3c00), (box half 0x1000), (0xffff000000000000 + 0x3c00), fNX. do 2 (split; [unfold reg, box; cbn; lia |]).
  split; [| intros [E _]; vm_compute in E; discriminate E].
  apply (half_exec_binary None _ 4 4); [lia | reflexivity | unfold reg, box; cbn; lia | unfold reg, box; cbn; lia | | left; split; [vm_compute; split; congruence | reflexivity]].
  change (unbox half (box half 0x3c00)) with 0x3c00. change (unbox half (box half 0x1000)) with 0x1000.
  assert (E1 : h_add H single 0 0x3f800000 0x3a000000 = (0x3f801000, 0)).
  { destruct (HH single 0 0x3f800000 0x3a000000 0) as (L & _); try (vm_compute; split; congruence); [left; reflexivity |].
    rewrite (like_number single _ _ L); [vm_compute; reflexivity |]. split; vm_compute; try reflexivity; split; congruence. }
  assert (E2 : to_half H single 4 0x3f801000 = (0x3c00, fNX)).
  { rewrite to_half_rmm, (to_half_host H ieee_host) by first [assumption | exact ieee_host_is_ok | left; reflexivity | vm_compute; split; congruence]. vm_compute. reflexivity. }
  change (half_binary H (h_add H) 4 0x3c00 0x1000) with (let (z, f3) := h_add H single 0 0x3f800000 0x3a000000 in let (v, f4) := to_half H single 4 z in (v, Z.lor f3 f4)).
  rewrite E1, E2. reflexivity.
Qed.
Print Assumptions half_arith_rmm_refuted.

(** fmadd.h, fmsub.h, fnmadd.h, fnmsub.h of boxed operands in RTZ, RDN, RUP, if fma(a, b, c) on floats is
    the float function: the low 16 bits are right.  Missing: RNE, RMM and the flags (refuted below); operands
    that are not boxed, as for fmadd.s (C71). *)
Theorem half_fma_partial : forall H dyn np na rm mode a b c old, host_ok H ->
  mode_of dyn rm mode -> 1 <= mode <= 3 -> boxed half a = true -> boxed half b = true -> boxed half c = true ->
  exists d fl, half_exec H false dyn (AFma half np na) rm a b c old = Some (Wrote d fl) /\ wrap 16 d = fst (a_result (AFma half np na) mode a b c).
Proof.
  intros H dyn np na rm mode a b c old HH HM Hm Ba Bb Bc. destruct (mode_resolve dyn rm mode HM) as [Hrm HR]. assert (Hm' : 0 <= mode <= 3) by lia.
  assert (UN : forall r, boxed half r = true -> get [r] 0 (width half) = Some (unbox half r)).
  { intros r B. unfold get, unbox. rewrite B. reflexivity. }
  assert (G : get [a; b; c; rm] 0 (width half) = Some (unbox half a) /\ get [a; b; c; rm] 1 (width half) = Some (unbox half b) /\ get [a; b; c; rm] 2 (width half) = Some (unbox half c)).
  { split; [exact (UN a Ba) |]. split; [exact (UN b Bb) | exact (UN c Bc)]. }
  destruct G as (G1 & G2 & G3). cbn [half_exec]. unfold ternary_float_nanbox. rewrite G1, G2, G3. rewrite (rm_read [a; b; c; rm] 3 rm eq_refl Hrm). cbn [bind]. rewrite HR.
  pose proof (unbox_range half a in_half) as Ra. pose proof (unbox_range half b in_half) as Rb. pose proof (unbox_range half c in_half) as Rc. change (2 ^ width half) with 65536 in Ra, Rb, Rc.
  cbn [a_result]. set (u := unbox half a) in *. set (v := unbox half b) in *. set (w := unbox half c) in *. clearbody u v w.
  pose proof (half_fma_tail H np na mode u v w Hm' Ra Rb Rc) as E. cbv zeta in E. rewrite E.
  destruct (widened_from u Ra) as [Wu _]. destruct (widened_from v Rb) as [Wv _]. destruct (widened_from w Rc) as [Ww _].
  set (x := fst (from_half single u)) in *. set (y := fst (from_half single v)) in *. set (z := fst (from_half single w)) in *.
  assert (FL : forall (s : bool) h g, 0 <= h < 65536 -> widened h g -> widened (opt_flip half s h) (if s then neg single g else g) /\ sig_flag (opt_flip half s h) = sig_flag h).
  { intros s h g Hh W. unfold opt_flip. destruct s; [| split; [exact W | reflexivity]]. rewrite neg_flip by exact ok_single. split; [apply widened_flip; exact W |].
    unfold sig_flag. destruct (flip_facts half h ok_half Hh) as (_ & _ & _ & _ & _ & S & _). rewrite S. reflexivity. }
  destruct (FL np u x Ra Wu) as [Wu' Fu]. destruct (FL na w z Rc Ww) as [Ww' Fw]. clear FL. rewrite <- Fu, <- Fw.
  set (u' := opt_flip half np u) in *. set (w' := opt_flip half na w) in *. set (x' := if np then neg single x else x) in *. set (z' := if na then neg single z else z) in *.
  assert (L : like single (h_fma H single mode x' y z') (ieee_fma single mode x' y z')).
  { apply (HH single mode x' y z' (or_introl eq_refl) Hm'); [apply Wu' | apply Wv | apply Ww']. }
  pose proof (tail_value H mode _ _ _ _ HH Hm L (fma_matching mode u' v w' x' y z' Wu' Wv Ww')) as T.
  assert (R : 0 <= fst (ieee_fma half mode u' v w') < 65536) by (apply half_range; apply fma_canonical; [exact ok_half | apply Ww']).
  destruct (tail H mode _ _) as [r fl]. cbn [fst] in T. rewrite <- T in R. eexists. eexists. split; [reflexivity |].
  change (width half) with 16. rewrite nanbox_half by exact R. rewrite low_half by exact R. exact T.
Qed.
Print Assumptions half_fma_partial.

Example half_fma_case : boxed half (box half 0x4200) = true /\ mode_of None 3 3 /\
  half_exec x86_host false None (AFma half false true) 3 (box half 0x4200) (box half 0x6156) (box half 0x0001) 0 = Some (Wrote 0xffff000000006801 fNX).
Proof. split; [reflexivity |]. split; [split; [lia | reflexivity] |]. vm_compute. reflexivity. Qed.

Lemma fma_witness : forall H mode a b c x y z t f1 v fl, host_ok H -> 0 <= mode <= 3 -> 0 <= a < 65536 -> 0 <= b < 65536 -> 0 <= c < 65536 ->
  from_half single a = (x, 0) -> from_half single b = (y, 0) -> from_half single c = (z, 0) -> ieee_fma single mode x y z = (t, f1) -> is_nan single t = false -> 0 <= t < 2 ^ 32 ->
  to_half ieee_host single mode t = (v, fl) -> 0 <= v < 65536 ->
  half_exec H false None (AFma half false false) mode (box half a) (box half b) (box half c) 0 = Some (Wrote (0xffff000000000000 + v) (Z.lor f1 fl)).
Proof.
  intros H mode a b c x y z t f1 v fl HH Hm Ha Hb Hc Ea Eb Ec Ef N Rt Et Rv. cbn [half_exec]. unfold ternary_float_nanbox.
  assert (G : forall r l i, 0 <= r < 65536 -> nth_error l i = Some (box half r) -> get l i (width half) = Some r).
  { intros r l i Hr E. rewrite (get_at l i _ _ E). f_equal. exact (box_low r Hr). }
  set (l := [box half a; box half b; box half c; mode]).
  rewrite (G a l 0%nat Ha eq_refl), (G b l 1%nat Hb eq_refl), (G c l 2%nat Hc eq_refl). rewrite (rm_read l 3 mode eq_refl) by (clear - Hm; lia). cbn [bind].
  replace (resolve None mode) with (Some mode) by (unfold resolve; replace (mode =? 7) with false by (symmetry; apply Z.eqb_neq; lia); reflexivity).
  unfold half_fma. rewrite Ea, Eb, Ec. unfold fma_call. cbn [andb]. rewrite host_rm_id by exact Hm.
  assert (W : forall h g, 0 <= h < 65536 -> from_half single h = (g, 0) -> 0 <= g < 2 ^ width single).
  { intros h g Hh E. destruct (widened_from h Hh) as [(_ & R & _) _]. rewrite E in R. exact R. }
  rewrite (host_case H single mode x y z); [| exact HH | left; reflexivity | exact Hm | apply (W a); assumption | apply (W b); assumption | apply (W c); assumption | rewrite Ef; exact N].
  rewrite Ef, (to_half_host H ieee_host) by (try assumption; try exact ieee_host_is_ok; left; reflexivity). rewrite Et. change (width half) with 16. rewrite nanbox_half by exact Rv.
  rewrite !Z.lor_0_l. reflexivity.
Qed.

(** In RNE the two roundings differ: 3 * 683 + 2^-24 lies just above the tie 2049, yet gives 2048. *)
Theorem half_fma_rne_refuted : forall H, host_ok H -> exists a b c d fl, boxed half a = true /\ boxed half b = true /\ boxed half c = true /\
  half_exec H false None (AFma half false false) 0 a b c 0 = Some (Wrote d fl) /\ wrap 16 d <> fst (a_result (AFma half false false) 0 a b c).
Proof.
  intros H HH. exists (box half 0x4200), (box half 0x6156), (box half 0x0001). eexists. eexists. do 3 (split; [reflexivity |]). split.
  - eapply (fma_witness H 0 0x4200 0x6156 0x0001); try exact HH; try (vm_compute; reflexivity); lia || (vm_compute; split; congruence).
  - intros E. vm_compute in E. discriminate E.
Qed.
Print Assumptions half_fma_rne_refuted.

(** Underflow is lost when the single-precision rounding hides the inexactness: 1023 * 2^-24 + 2^-48 in RTZ. *)
Theorem half_fma_flags_refuted : forall H, host_ok H -> exists a b c d fl, boxed half a = true /\ boxed half b = true /\ boxed half c = true /\
  half_exec H false None (AFma half false false) 1 a b c 0 = Some (Wrote d fl) /\
  Z.land fl fUF = 0 /\ Z.land (snd (a_result (AFma half false false) 1 a b c)) fUF = fUF.
Proof.
  intros H HH. exists (box half 0x0001), (box half 0x0001), (box half 0x03ff). eexists. eexists. do 3 (split; [reflexivity |]). split.
  - eapply (fma_witness H 1 0x0001 0x0001 0x03ff); try exact HH; try (vm_compute; reflexivity); lia || (vm_compute; split; congruence).
  - split; vm_compute; reflexivity.
Qed.
Print Assumptions half_fma_flags_refuted.
