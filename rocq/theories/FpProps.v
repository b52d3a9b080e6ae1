(** NaN boxing (C28), classification (C29), min/max/sign injection/compare (C30), conversion to
    integers (C31), half to wider formats (C32). *)
From Coq Require Import ZArith Bool List Lia.
From Verif Require Import Bits IeeeSpec FpSpec IntModel FpModel FpProofs FpHalf FpCvt FpWiden FpExec.
Import ListNotations.
Local Open Scope Z_scope.

(** The instruction completes, writes its destination, and the value and the flags are those of the
    manual. *)
Definition conforms (m : ovf) (canon xl : Z) (dyn : option Z) (I : finst) (rm mode a b old : Z) : Prop :=
  exists d fl, exec m canon xl dyn I rm a b old = Some (Wrote d fl) /\ correct xl I mode a b d fl.

(** The rounding mode in force: the field of the instruction, or frm when the field is 7. *)
Definition mode_of (dyn : option Z) (rm mode : Z) : Prop := 0 <= rm <= 7 /\ (if rm =? 7 then dyn = Some mode else rm = mode).

(** Contents of the old destination: a 64-bit fp register or an integer register of [xl] bits. *)
Definition x_dest (I : finst) : bool :=
  match I with FEq _ | FLt _ | FLe _ | FClass _ | FCvtInt _ _ _ | FMvXF _ => true | _ => false end.
Definition old_ok (xl : Z) (I : finst) (old : Z) : Prop := if x_dest I then 0 <= old < 2 ^ xl else reg old.

(** * C28 *)

(** Boxing a value and reading it back gives the value, through the code that does both. *)
Theorem box_then_unbox : forall f canon old v, In f formats -> reg old -> 0 <= v < 2 ^ width f ->
  nanbox_z 64 (width f) old v = box f v /\
  boxed f (nanbox_z 64 (width f) old v) = true /\
  boxed_source 64 (width f) canon [nanbox_z 64 (width f) old v] 0 = Some v.
Proof.
  intros f canon old v Hf Ho Hv. rewrite nanbox_z_box by assumption. destruct (box_unbox f v Hf Hv) as [U B].
  split; [reflexivity |]. split; [exact B |].
  rewrite (source_read f canon [box f v] 0 (box f v) Hf eq_refl); [rewrite U; reflexivity | | right; exact B].
  unfold reg, box. assert (P : 2 ^ 64 = 2 ^ (FLEN - width f) * 2 ^ width f) by (destruct Hf as [<- | [<- | [<- | []]]]; reflexivity).
  assert (0 < 2 ^ (FLEN - width f)) by (destruct Hf as [<- | [<- | [<- | []]]]; reflexivity). rewrite P. nia.
Qed.
Print Assumptions box_then_unbox.

Example box_then_unbox_case : nanbox_z 64 (width half) 5 0x3c00 = 0xffffffffffff3c00.
Proof. reflexivity. Qed.

(** Reading: a register that is not boxed reads as the canonical NaN. *)
Theorem unboxed_reads_as_nan : forall f r, In f formats -> reg r -> boxed f r = false ->
  boxed_source 64 (width f) (kCanonicalNaN f) [r] 0 = Some (canonical_nan f).
Proof.
  intros f r Hf Hr B. rewrite canonical_eq by exact Hf.
  rewrite (source_read f _ [r] 0 r Hf eq_refl Hr (or_introl eq_refl)). unfold unbox. rewrite B. reflexivity.
Qed.
Print Assumptions unboxed_reads_as_nan.

Example unboxed_reads_as_nan_case : boxed single 0x3f800000 = false /\ reg 0x3f800000.
Proof. split; [reflexivity | unfold reg; lia]. Qed.

(** Moves into fp registers and the full-size loads box. *)
Theorem moves_and_loads_box_partial : forall m canon xl dyn I rm mode a b old, exists_in xl I ->
  match I with FMvFX f => True | FLoad f c => c = true -> f = double | _ => False end ->
  reg a -> (match I with FMvFX _ => a < 2 ^ xl | _ => True end) -> reg old ->
  conforms m canon xl dyn I rm mode a b old.
Proof.
  intros m canon xl dyn I rm mode a b old [Hx HI] HC Ha Hax Ho. unfold conforms, exec.
  assert (W : forall v, wrap 16 v = v mod 2 ^ width half) by reflexivity.
  destruct I as [f | f | f k | f | f | f | f | f sg w | f g | f | f | f c]; try contradiction.
  - destruct HI as [-> | [-> | [-> Hx']]].
    + exists (box half (a mod 2 ^ width half)), 0. split; [| split; reflexivity].
      cbn [operands semfunc]. change (is_fmt half half) with true. cbv iota. rewrite (get_at [a] 0 xl a eq_refl). cbn [bind].
      rewrite (Z.mod_small a (2 ^ xl)) by (unfold reg in Ha; lia).
      change (nanbox_z 64 16 old (wrap 16 a)) with (nanbox_z 64 (width half) old (wrap 16 a)).
      rewrite (nanbox_z_box half old (wrap 16 a) in_half Ho); [reflexivity |].
      apply Z.mod_pos_bound. reflexivity.
    + exists (box single (a mod 2 ^ width single)), 0. split; [| split; reflexivity].
      cbn [operands semfunc]. change (is_fmt single half) with false. change (is_fmt single single) with true. cbv iota.
      unfold unary_nanbox, boxed_source. change (32 <=? 32) with true. cbv iota. rewrite (get_at [a] 0 32 a eq_refl). cbn [bind].
      rewrite nanbox_single by (apply Z.mod_pos_bound; reflexivity). reflexivity.
    + exists (box double (a mod 2 ^ width double)), 0. split; [| split; reflexivity].
      cbn [operands semfunc]. change (is_fmt double half) with false. change (is_fmt double single) with false. cbv iota.
      unfold unary_op. rewrite (get_at [a] 0 64 a eq_refl). cbn [bind]. rewrite set_low_all by (try exact Ho; lia).
      rewrite box_double. unfold wrap. rewrite Z.mod_mod by lia. reflexivity.
  - assert (LD : load_child 64 64 old (a mod 2 ^ 64) = box double (a mod 2 ^ width double)).
    { unfold load_child. rewrite set_low_all by (try exact Ho; lia). rewrite box_double, wrap_sgn by lia.
      change (width double) with 64. unfold wrap. apply Z.mod_mod. lia. }
    exists (box f (a mod 2 ^ width f)), 0. split; [| split; reflexivity].
    cbn [operands semfunc]. rewrite (get_at [a] 0 (width f) a eq_refl). cbn [bind].
    destruct c.
    + rewrite (HC eq_refl). change (is_fmt double single) with false. cbv iota. change (width double) with 64 at 1. rewrite LD. reflexivity.
    + destruct HI as [<- | [<- | [<- | []]]].
      * change (is_fmt half double) with false. cbv iota. rewrite nanbox_z_box; [reflexivity | exact in_half | exact Ho | apply Z.mod_pos_bound; reflexivity].
      * change (is_fmt single double) with false. cbv iota. rewrite nanbox_z_box; [reflexivity | exact in_single | exact Ho | apply Z.mod_pos_bound; reflexivity].
      * change (is_fmt double double) with true. cbv iota. change (width double) with 64 at 1. rewrite LD. reflexivity.
Qed.
Print Assumptions moves_and_loads_box_partial.

Example moves_and_loads_box_case :
  exec Iso 0 64 None (FLoad half false) 0 0xbc00 0 7 = Some (Wrote 0xffffffffffffbc00 0) /\
  exec Iso 0 32 None (FMvFX single) 0 0x3f800000 0 7 = Some (Wrote 0xffffffff3f800000 0).
Proof. split; reflexivity. Qed.

(** c.flw and c.flwsp (RV32 only) leave the upper half of the register as it was. *)
Theorem compressed_flw_boxes_refuted : exists v old d, reg old /\ 0 <= v < 2 ^ 32 /\
  exec Iso (canonical_nan single) 32 None (FLoad single true) 0 v 0 old = Some (Wrote d 0) /\
  boxed single d = false /\ ~ correct 32 (FLoad single true) 0 v 0 d 0.
Proof.
  exists 0x3f800000, 0, 0x3f800000. split; [unfold reg; lia |]. split; [lia |]. split; [reflexivity |]. split; [reflexivity |].
  intros [H _]. discriminate H.
Qed.
Print Assumptions compressed_flw_boxes_refuted.

(** Instructions that read a narrow operand without checking that it is boxed: they take the low
    bits. *)
Theorem unboxed_operand_is_nan_refuted : let one := 0x3f800000 in boxed single one = false /\
  (exists d, exec Iso (canonical_nan single) 32 None (FEq single) 0 one one 0 = Some (Wrote d 0) /\ ~ correct 32 (FEq single) 0 one one d 0) /\
  (exists d, exec Iso (canonical_nan single) 64 None (FClass single) 0 one 0 0 = Some (Wrote d 0) /\ ~ correct 64 (FClass single) 0 one 0 d 0) /\
  (exists d, exec Iso (canonical_nan single) 64 None (FCvtInt single true 32) 0 one 0 0 = Some (Wrote d 0) /\ ~ correct 64 (FCvtInt single true 32) 0 one 0 d 0) /\
  (exists d, exec Iso (canonical_nan single) 64 None (FWiden single double) 0 one 0 0 = Some (Wrote d 0) /\ ~ correct 64 (FWiden single double) 0 one 0 d 0).
Proof.
  split; [reflexivity |]. split; [| split; [| split]].
  - exists 1. split; [reflexivity |]. intros [H _]. discriminate H.
  - exists 64. split; [reflexivity |]. intros [H _]. discriminate H.
  - exists 1. split; [vm_compute; reflexivity |]. intros (v & [H1 H2] & _). discriminate H2.
  - exists 0x3ff0000000000000. split; [vm_compute; reflexivity |]. intros (r & (_ & _ & H) & E). change (r = canonical_nan double) in H. rewrite box_double, H in E. discriminate E.
Qed.
Print Assumptions unboxed_operand_is_nan_refuted.

(** fmv.x.h, fmin.h, fmax.h and fsgnj*.h read an operand their declarations do not provide. *)
Theorem half_operands_declared_refuted : forall m canon xl dyn rm a b old k,
  exec m canon xl dyn (FMin half) rm a b old = None /\ exec m canon xl dyn (FMax half) rm a b old = None /\
  exec m canon xl dyn (FSgnj half k) rm a b old = None /\ exec m canon xl dyn (FMvXF half) rm a b old = None.
Proof.
  intros m canon xl dyn rm a b old k. split; [reflexivity |]. split; [reflexivity |].
  unfold exec. cbn [operands semfunc]. change (is_fmt half half) with true. cbv iota. split.
  - unfold binary_float_nanbox, boxed_source, get. cbn [nth_error option_map bind].
    change (64 <=? width half) with false. cbv iota. repeat match goal with |- context [if ?c then _ else _] => destruct c end; reflexivity.
  - unfold unary_float_op, get. cbn [nth_error option_map bind]. reflexivity.
Qed.
Print Assumptions half_operands_declared_refuted.

(** * C29 *)

(** The classification of every bit pattern of every format: bit [class_bit] and no other. *)
Theorem classify_correct : forall f x, In f formats -> 0 <= x < 2 ^ width f ->
  ClassifyFP f x = 2 ^ class_bit f x /\ 0 <= class_bit f x <= 9 /\
  (forall n, 0 <= n -> Z.testbit (ClassifyFP f x) n = (n =? class_bit f x)).
Proof.
  intros f x Hf Hx. rewrite class_correct by (try (apply formats_ok; exact Hf); exact Hx).
  split; [reflexivity |]. split; [apply class_small |]. intros n Hn.
  rewrite Z.pow2_bits_eqb by apply class_small. apply Z.eqb_sym.
Qed.
Print Assumptions classify_correct.

Example classify_correct_case :
  ClassifyFP single 0x7fc00000 = 512 /\ ClassifyFP single 0x7f800001 = 256 /\ ClassifyFP double 0x8000000000000001 = 4 /\
  ClassifyFP half 0xfc00 = 1.
Proof. repeat split. Qed.

(** fclass on a boxed operand (any double is), except fclass.s on RV64. *)
Theorem fclass_correct_partial : forall m canon xl dyn f rm mode a b old, exists_in xl (FClass f) -> f <> single \/ xl = 32 ->
  reg a -> 0 <= old < 2 ^ xl -> boxed f a = true -> conforms m canon xl dyn (FClass f) rm mode a b old.
Proof.
  intros m canon xl dyn f rm mode a b old [Hx HI] HC Ha Ho B. unfold conforms, exec. cbn [operands semfunc correct].
  exists (2 ^ class_bit f (unbox f a)), 0. split; [| split; reflexivity].
  destruct HI as [<- | [<- | [<- | []]]].
  - change (is_fmt half half) with true. cbv iota. apply (class_exec half); [exact in_half | exact Hx | exact B | exact Ho].
  - destruct HC as [HC | ->]; [contradiction HC; reflexivity |].
    change (is_fmt single half) with false. change (is_fmt single single) with true. cbv iota.
    apply (class_exec single); [exact in_single | left; reflexivity | exact B | exact Ho].
  - change (is_fmt double half) with false. change (is_fmt double single) with false. cbv iota.
    apply (class_exec double); [exact in_double | exact Hx | exact B | exact Ho].
Qed.
Print Assumptions fclass_correct_partial.

Example fclass_correct_case : boxed half 0xffffffffffff0001 = true /\
  exec Iso 0 64 None (FClass half) 0 0xffffffffffff0001 0 99 = Some (Wrote 32 0).
Proof. split; reflexivity. Qed.

(** On RV64 fclass.s only writes the low half of the integer register. *)
Theorem fclass_single_rv64_refuted : exists a old d, reg a /\ boxed single a = true /\ 0 <= old < 2 ^ 64 /\
  exec Iso (canonical_nan single) 64 None (FClass single) 0 a 0 old = Some (Wrote d 0) /\ ~ correct 64 (FClass single) 0 a 0 d 0.
Proof.
  exists 0xffffffff3f800000, 0xffffffff00000000, 0xffffffff00000040. split; [unfold reg; lia |]. split; [reflexivity |].
  split; [lia |]. split; [reflexivity |]. intros [H _]. vm_compute in H. discriminate H.
Qed.
Print Assumptions fclass_single_rv64_refuted.

(** * C30 *)

(** The operands need to be boxed only where the code does not check. *)
Definition unchecked (canon xl : Z) (I : finst) : bool :=
  match I with
  | FSgnj f _ => is_fmt f single && negb (canon =? canonical_nan single)
  | FEq f | FLt f | FLe f => is_fmt f single && (xl =? 32)
  | _ => false end.

Theorem min_max_sgnj_cmp_correct_partial : forall m canon xl dyn I rm mode a b old, exists_in xl I ->
  match I with
  | FMin f | FMax f | FSgnj f _ => f <> half
  | FEq f | FLt f | FLe f => True
  | _ => False end ->
  reg a -> reg b -> old_ok xl I old ->
  (unchecked canon xl I = true -> boxed single a = true /\ boxed single b = true) ->
  conforms m canon xl dyn I rm mode a b old.
Proof.
  intros m canon xl dyn I rm mode a b old [Hx HI] HC Ha Hb Ho HB. unfold conforms, exec, old_ok in *.
  assert (CS : forall f, (is_fmt single single && (xl =? 32) = true -> boxed single a = true /\ boxed single b = true) ->
    f = xl -> xl = 32 /\ boxed single a = true /\ boxed single b = true \/ xl = 64).
  { intros f H _. destruct Hx as [-> | ->]; [left | right; reflexivity]. split; [reflexivity | exact (H eq_refl)]. }
  destruct I as [f | f | f k | f | f | f | f | f sg w | f g | f | f | f c]; try contradiction; cbn [operands semfunc correct x_dest unchecked] in *.
  - eexists. eexists. split; [| split; reflexivity]. destruct HI as [<- | [<- | [<- | []]]]; [contradiction HC; reflexivity | |].
    + exact (min_s a b old Ha Hb).
    + refine (double_op (op_min double) _ _ a b old Ha Hb Ho _ _); [apply min_correct | apply (min_max_range double)]; try exact in_double; apply (unbox_range double), in_double.
  - eexists. eexists. split; [| split; reflexivity]. destruct HI as [<- | [<- | [<- | []]]]; [contradiction HC; reflexivity | |].
    + exact (max_s a b old Ha Hb).
    + refine (double_op (op_max_d double) _ _ a b old Ha Hb Ho _ _); [apply max_d_correct | apply (min_max_range double)]; try exact in_double; apply (unbox_range double), in_double.
  - eexists. eexists. split; [| split; reflexivity]. destruct HI as [<- | [<- | [<- | []]]]; [contradiction HC; reflexivity | |].
    + apply (sgnj_s canon k a b old Ha Hb). destruct (Z.eqb_spec canon (canonical_nan single)) as [E | E]; [left; exact E | right; exact (HB eq_refl)].
    + refine (double_op _ _ _ a b old Ha Hb Ho _ _).
      * cbv beta. rewrite sgnj_correct; [reflexivity | apply formats_ok; exact in_double | |]; apply (unbox_range double), in_double.
      * apply (inject_range double). apply formats_ok. exact in_double.
  - eexists. eexists. split; [| split; reflexivity]. destruct HI as [<- | [<- | [<- | []]]].
    + exact (eq_h xl a b old Hx Ha Hb Ho).
    + refine (cmp_s (op_eq single) Z.eqb (fun a b => nv (either_snan single a b)) xl a b old (CS xl HB eq_refl) Ha Hb Ho _).
      intros x y. unfold op_eq. rewrite (proj1 (host_cmp _ _ _)). rewrite !IsSNaN_eq by (apply formats_ok; exact in_single). reflexivity.
    + refine (cmp_d (op_eq double) Z.eqb (fun a b => nv (either_snan double a b)) xl a b old Hx Ha Hb Ho _).
      intros x y. unfold op_eq. rewrite (proj1 (host_cmp _ _ _)). rewrite !IsSNaN_eq by (apply formats_ok; exact in_double). reflexivity.
  - eexists. eexists. split; [| split; reflexivity]. destruct HI as [<- | [<- | [<- | []]]].
    + exact (rel_h host_lt Z.ltb xl a b old (or_introl (conj eq_refl eq_refl)) Hx Ha Hb Ho).
    + refine (cmp_s (op_lt single) Z.ltb (fun a b => nv (either_nan single a b)) xl a b old (CS xl HB eq_refl) Ha Hb Ho _).
      intros x y. unfold op_lt. rewrite (proj1 (proj2 (host_cmp _ _ _))). rewrite !IsNaN_eq by (apply formats_ok; exact in_single). reflexivity.
    + refine (cmp_d (op_lt double) Z.ltb (fun a b => nv (either_nan double a b)) xl a b old Hx Ha Hb Ho _).
      intros x y. unfold op_lt. rewrite (proj1 (proj2 (host_cmp _ _ _))). rewrite !IsNaN_eq by (apply formats_ok; exact in_double). reflexivity.
  - eexists. eexists. split; [| split; reflexivity]. destruct HI as [<- | [<- | [<- | []]]].
    + exact (rel_h host_le Z.leb xl a b old (or_intror (conj eq_refl eq_refl)) Hx Ha Hb Ho).
    + refine (cmp_s (op_le single) Z.leb (fun a b => nv (either_nan single a b)) xl a b old (CS xl HB eq_refl) Ha Hb Ho _).
      intros x y. unfold op_le. rewrite (proj2 (proj2 (host_cmp _ _ _))). rewrite !IsNaN_eq by (apply formats_ok; exact in_single). reflexivity.
    + refine (cmp_d (op_le double) Z.leb (fun a b => nv (either_nan double a b)) xl a b old Hx Ha Hb Ho _).
      intros x y. unfold op_le. rewrite (proj2 (proj2 (host_cmp _ _ _))). rewrite !IsNaN_eq by (apply formats_ok; exact in_double). reflexivity.
Qed.
Print Assumptions min_max_sgnj_cmp_correct_partial.

(** fmin.s(-0, +0) = -0; fmax.d(sNaN, 1) = 1 with NV; feq of a quiet NaN raises nothing, flt does. *)
Example min_max_sgnj_cmp_case :
  exec Iso (canonical_nan single) 64 None (FMin single) 0 0xffffffff00000000 0xffffffff80000000 7 = Some (Wrote 0xffffffff80000000 0) /\
  exec Iso (canonical_nan single) 64 None (FMax double) 0 0x7ff0000000000001 0x3ff0000000000000 7 = Some (Wrote 0x3ff0000000000000 16) /\
  exec Iso (canonical_nan single) 64 None (FEq half) 0 0xffffffffffff7e00 0xffffffffffff3c00 7 = Some (Wrote 0 0) /\
  exec Iso (canonical_nan single) 64 None (FLt half) 0 0xffffffffffff7e00 0xffffffffffff3c00 7 = Some (Wrote 0 16) /\
  exec Iso (canonical_nan single) 64 None (FLt half) 0 0xffffffffffff3c00 0xffffffffffff7c00 7 = Some (Wrote 1 0).
Proof. split; [vm_compute; reflexivity |]. split; [vm_compute; reflexivity |]. split; [vm_compute; reflexivity |]. split; vm_compute; reflexivity. Qed.

(** * C31 *)

Lemma mode_resolve : forall dyn rm mode, mode_of dyn rm mode -> 0 <= rm < 2 ^ 32 /\ resolve dyn rm = Some mode.
Proof.
  intros dyn rm mode [H1 H2]. split; [lia |]. unfold resolve. destruct (rm =? 7); [exact H2 | rewrite H2; reflexivity].
Qed.

(** For every boxed operand, rounding mode and integer type: the value is the correctly rounded or
    saturated one; so are the flags, except that rounding to nearest-max-magnitude (mode 4) raises
    nothing on a tie.  The side condition excludes the results whose negation overflows a signed type;
    with wrapping arithmetic it is not needed. *)
Theorem fcvt_int_correct_partial : forall m canon xl dyn f sg w rm mode a b old, exists_in xl (FCvtInt f sg w) ->
  mode_of dyn rm mode -> 0 <= mode <= 4 -> reg a -> boxed f a = true -> 0 <= old < 2 ^ xl ->
  m = Wrapv \/ no_overflow f sg w mode (unbox f a) ->
  exists d fl fl', exec m canon xl dyn (FCvtInt f sg w) rm a b old = Some (Wrote d fl) /\
    correct xl (FCvtInt f sg w) mode a b d fl' /\
    (fl = fl' \/ mode = 4 /\ is_finite f (unbox f a) = true /\ tie (units f (unbox f a)) (2 ^ quantum f) /\ fl = 0 /\ fl' = fNX).
Proof.
  intros m canon xl dyn f sg w rm mode a b old [Hx [Hf Hw]] HM Hm Ha B Ho HO. unfold exec. cbn [operands semfunc correct].
  destruct (mode_resolve dyn rm mode HM) as [Hrm HR].
  assert (W : w = 32 \/ w = 64) by tauto.
  destruct (cvt_exec m dyn f sg w rm mode xl a old Hf W Hx Hrm HR Hm B Ho HO) as (d & fl & v & fl' & E & T & D & F).
  exists d, fl, fl'. split; [exact E |]. split; [exists v; split; assumption | exact F].
Qed.
Print Assumptions fcvt_int_correct_partial.

(** fcvt.w.s of 2.5 with rne, of -2.5 with rdn, of 1e10; fcvt.wu.d of -1 with rtz. *)
Example fcvt_int_case :
  exec Iso 0 64 None (FCvtInt single true 32) 0 0xffffffff40200000 0 0 = Some (Wrote 2 1) /\
  exec Iso 0 64 (Some 2) (FCvtInt single true 32) 7 0xffffffffc0200000 0 0 = Some (Wrote (2 ^ 64 - 3) 1) /\
  exec Iso 0 64 None (FCvtInt single true 32) 0 0xffffffff501502f9 0 0 = Some (Wrote 0x7fffffff 16) /\
  exec Iso 0 64 None (FCvtInt double false 32) 1 0xbff0000000000000 0 0 = Some (Wrote 0 16).
Proof. split; [vm_compute; reflexivity |]. split; [vm_compute; reflexivity |]. split; vm_compute; reflexivity. Qed.

Theorem fcvt_tie_inexact_refuted : exists a d, reg a /\ boxed single a = true /\
  exec Iso (canonical_nan single) 64 None (FCvtInt single true 32) 4 a 0 0 = Some (Wrote d 0) /\
  ~ correct 64 (FCvtInt single true 32) 4 a 0 d 0.
Proof.
  exists 0xffffffff3f000000, 1. split; [unfold reg; lia |]. split; [reflexivity |]. split; [vm_compute; reflexivity |].
  intros (v & T & _). unfold to_int in T.
  change (is_nan single (unbox single 0xffffffff3f000000)) with false in T.
  change (is_inf single (unbox single 0xffffffff3f000000)) with false in T. cbv iota in T.
  destruct T as (z & [R _] & T).
  change (units single (unbox single 0xffffffff3f000000)) with (2 ^ 148) in *. change (quantum single) with 149 in *.
  assert (Z01 : z = 0 \/ z = 1) by (change (2 ^ 149) with (2 * 2 ^ 148) in R; lia).
  destruct Z01 as [-> | ->]; cbn in T; destruct T as [_ T]; discriminate T.
Qed.
Print Assumptions fcvt_tie_inexact_refuted.

(** The smallest integer of the type is computed as the negation of a number it does not hold. *)
Theorem fcvt_min_int_defined_refuted : exists a, reg a /\ boxed single a = true /\
  exec Iso (canonical_nan single) 64 None (FCvtInt single true 32) 1 a 0 0 = None /\
  exec Iso (canonical_nan single) 64 None (FCvtInt single true 64) 1 a 0 0 <> None.
Proof.
  exists 0xffffffffcf000000. split; [unfold reg; lia |]. split; [reflexivity |]. split; [vm_compute; reflexivity |].
  vm_compute. discriminate.
Qed.
Print Assumptions fcvt_min_int_defined_refuted.

(** * C32 *)

Theorem half_widening_exact : forall m canon xl dyn g rm mode a b old, exists_in xl (FWiden half g) -> mode_of dyn rm mode ->
  reg a -> reg old -> conforms m canon xl dyn (FWiden half g) rm mode a b old.
Proof.
  intros m canon xl dyn g rm mode a b old [Hx HI] HM Ha Ho. unfold conforms, exec. cbn [operands semfunc correct].
  destruct (mode_resolve dyn rm mode HM) as [Hrm HR].
  assert (Hg : g = single \/ g = double) by (destruct HI as [E | [E | [E | []]]]; inversion E; auto).
  destruct (widen_h dyn g rm mode a old Hg Hrm HR Ha Ho) as (r & fl & E & W).
  exists (box g r), fl. split; [exact E |]. exists r. split; [exact W | reflexivity].
Qed.
Print Assumptions half_widening_exact.

(** The smallest denormal 2^-24 to single, -infinity to double, a signaling NaN. *)
Example half_widening_case :
  exec Iso 0 64 None (FWiden half single) 0 0xffffffffffff0001 0 0 = Some (Wrote 0xffffffff33800000 0) /\
  exec Iso 0 64 None (FWiden half double) 0 0xfffffffffffffc00 0 0 = Some (Wrote 0xfff0000000000000 0) /\
  exec Iso 0 64 None (FWiden half double) 0 0xffffffffffff7d00 0 0 = Some (Wrote 0x7ff8000000000000 16).
Proof. split; [vm_compute; reflexivity |]. split; vm_compute; reflexivity. Qed.

(** fcvt.d.s likewise for boxed operands that are not signaling NaNs. *)
Theorem single_widening_exact_partial : forall m canon xl dyn rm mode a b old, exists_in xl (FWiden single double) -> mode_of dyn rm mode ->
  reg a -> reg old -> boxed single a = true -> is_snan single (unbox single a) = false ->
  conforms m canon xl dyn (FWiden single double) rm mode a b old.
Proof.
  intros m canon xl dyn rm mode a b old [Hx HI] HM Ha Ho B SN. unfold conforms, exec. cbn [operands semfunc correct].
  destruct (mode_resolve dyn rm mode HM) as [Hrm HR].
  destruct (widen_s dyn rm mode a old Hrm HR B Ho SN) as (r & fl & E & W).
  exists (box double r), fl. split; [exact E |]. exists r. split; [exact W | reflexivity].
Qed.
Print Assumptions single_widening_exact_partial.

Example single_widening_case : boxed single 0xffffffff80000001 = true /\
  exec Iso 0 64 None (FWiden single double) 0 0xffffffff80000001 0 0 = Some (Wrote 0xb6a0000000000000 0).
Proof. split; vm_compute; reflexivity. Qed.

(** A signaling NaN is converted without raising invalid. *)
Theorem single_widening_signaling_refuted : exists a d, reg a /\ boxed single a = true /\
  exec Iso (canonical_nan single) 64 None (FWiden single double) 0 a 0 0 = Some (Wrote d 0) /\
  ~ correct 64 (FWiden single double) 0 a 0 d 0.
Proof.
  exists 0xffffffff7f800001, 0x7ff8000000000000. split; [unfold reg; lia |]. split; [reflexivity |]. split; [vm_compute; reflexivity |].
  intros (r & (H & _) & _). vm_compute in H. discriminate H.
Qed.
Print Assumptions single_widening_signaling_refuted.

(** * Moves out of fp registers (C30) *)

(** fmv.x.w and fmv.x.d: the low bits, sign-extended; no check that they are boxed. *)
Theorem fmv_x_correct_partial : forall m canon xl dyn f rm mode a b old, exists_in xl (FMvXF f) -> f <> half ->
  reg a -> 0 <= old < 2 ^ xl -> conforms m canon xl dyn (FMvXF f) rm mode a b old.
Proof.
  intros m canon xl dyn f rm mode a b old [Hx HI] HC Ha Ho. unfold conforms, exec. cbn [operands semfunc correct].
  eexists. eexists. split; [| split; reflexivity].
  destruct HI as [-> | [-> | [-> ->]]]; [contradiction HC; reflexivity | |].
  - change (is_fmt single half) with false. change (is_fmt single single) with true. cbv iota. unfold unary_op.
    rewrite (get_at [a] 0 32 a eq_refl). cbn [bind]. rewrite set_low_all by (try exact Ho; lia). reflexivity.
  - change (is_fmt double half) with false. change (is_fmt double single) with false. cbv iota. unfold unary_op.
    rewrite (get_at [a] 0 64 a eq_refl). cbn [bind]. rewrite set_low_all by (try exact Ho; lia).
    change (width double) with 64. rewrite wrap_sgn by lia. reflexivity.
Qed.
Print Assumptions fmv_x_correct_partial.

Example fmv_x_case : exec Iso 0 64 None (FMvXF single) 0 0xffffffffbf800000 0 0 = Some (Wrote 0xffffffffbf800000 0).
Proof. reflexivity. Qed.

(** fmv.x.h: were its rounding-mode operand declared, the semantic function would give the low half,
    sign-extended. *)
Theorem fmv_x_h_semantics_partial : forall m canon xl dyn rm mode a b old, xl = 32 \/ xl = 64 -> mode_of dyn rm mode ->
  reg a -> 0 <= old < 2 ^ xl ->
  exists d fl, semfunc m canon xl dyn (FMvXF half) [a; rm] old = Some (Wrote d fl) /\ correct xl (FMvXF half) mode a b d fl.
Proof.
  intros m canon xl dyn rm mode a b old Hx HM Ha Ho. destruct (mode_resolve _ _ _ HM) as [HR R].
  eexists. eexists. split; [| cbn [correct]; split; reflexivity].
  cbn [semfunc]. change (is_fmt half half) with true. cbv iota. unfold unary_float_op.
  rewrite (get_at [a; rm] 0 16 a eq_refl). cbn [bind]. rewrite (get_at [a; rm] 1 32 rm eq_refl). cbn [bind].
  change (rm mod 2 ^ 32) with (wrap 32 rm). rewrite (wrap_id 32 rm) by exact HR. rewrite R. cbv beta iota.
  rewrite set_low_all by (try exact Ho; lia). change (width half) with 16. change (a mod 2 ^ 16) with (wrap 16 a).
  pose proof (wrap_range 16 a ltac:(lia)) as W. set (v := wrap 16 a) in *. clearbody v. clear - Hx W. try unfold inw in W.
  unfold op_mvxh, SignBit. change (width half - 1) with 15. unfold sgn.
  replace (wrap 16 v) with v by (symmetry; apply wrap_id; exact W).
  rewrite Z.testbit_odd, Z.shiftr_div_pow2 by lia. change (2 ^ 15) with 32768. change (2 ^ (16 - 1)) with 32768. change (2 ^ 16) with 65536. change (0 <= v < 65536) in W.
  assert (D : v / 32768 = if v <? 32768 then 0 else 1).
  { destruct (Z.ltb_spec v 32768); [apply Z.div_small; lia |]. symmetry. apply (Z.div_unique v 32768 1 (v - 32768)); lia. }
  rewrite D. destruct (Z.ltb_spec v 32768) as [L | L]; cbn [Z.odd]; cbv iota; [reflexivity |].
  assert (P : forall h, 0 <= h -> Z.lor (Z.shiftl h 16) v = h * 65536 + v).
  { intros h Hh. rewrite Z.shiftl_mul_pow2 by lia. change (2 ^ 16) with 65536.
    apply Z.bits_inj'. intros n Hn. rewrite Z.lor_spec. change 65536 with (2 ^ 16).
    destruct (Z.ltb_spec n 16) as [Q | Q].
    - rewrite Z.mul_pow2_bits_low by lia. cbn [orb]. rewrite <- (Z.mod_pow2_bits_low (h * 2 ^ 16 + v) 16 n) by lia.
      rewrite Z.add_comm, Z_mod_plus_full, Z.mod_small by (change (2 ^ 16) with 65536; lia). reflexivity.
    - rewrite Z.mul_pow2_bits by lia.
      assert (B : Z.testbit v n = false).
      { rewrite Z.testbit_odd, Z.shiftr_div_pow2 by lia. rewrite Z.div_small; [reflexivity |]. split; [lia |].
        apply Z.lt_le_trans with (2 ^ 16); [change (2 ^ 16) with 65536; lia | apply Z.pow_le_mono_r; lia]. }
      rewrite B.
      rewrite orb_false_r. replace (h * 2 ^ 16 + v) with (v + h * 2 ^ 16) by ring.
      replace n with (n - 16 + 16) at 2 by ring. rewrite <- Z.shiftr_spec by lia. rewrite Z.shiftr_div_pow2, Z.div_add by lia.
      rewrite Z.div_small by (change (2 ^ 16) with 65536; lia). reflexivity. }
  destruct Hx as [-> | ->].
  - change (wrap 32 (Z.shiftl (2 ^ 32 - 1) 16)) with (Z.shiftl 65535 16). rewrite P by lia.
    unfold wrap. change (2 ^ 32) with 4294967296. rewrite (Z.mod_small (65535 * 65536 + v)) by lia.
    f_equal. f_equal. apply (Z.mod_unique _ _ (-1)); lia.
  - change (wrap 64 (Z.shiftl (2 ^ 64 - 1) 16)) with (Z.shiftl 281474976710655 16). rewrite P by lia.
    unfold wrap. change (2 ^ 64) with 18446744073709551616. rewrite (Z.mod_small (281474976710655 * 65536 + v)) by lia.
    f_equal. f_equal. apply (Z.mod_unique _ _ (-1)); lia.
Qed.
Print Assumptions fmv_x_h_semantics_partial.

Example fmv_x_h_case : semfunc Iso 0 64 None (FMvXF half) [0xffffffffffffbc00; 0] 7 = Some (Wrote 0xffffffffffffbc00 0).
Proof. vm_compute. reflexivity. Qed.
