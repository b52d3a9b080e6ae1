(** Element-wise vector floating-point instructions: elements and loops together; tools for counterexamples. *)
From Coq Require Import ZArith Bool List Lia.
From Verif Require Import Bits Memory IeeeSpec FpSpec FarithSpec IntModel FpModel FarithModel FpProofs FarithProofs HalfArith VelemSpec VcfgModel VelemModel VelemProofs4 FvSpec FvModel FvLoop FvWide FvElem FvConv FvRecip.
Import ListNotations.
Local Open Scope Z_scope.

Lemma fvrel_other : forall o b mode x y z y' z' r fl, (has_f1 o = true -> y = y') -> (freads_vd o = true -> z = z') ->
  fvrel o b mode true x y z r fl -> fvrel o b mode true x y' z' r fl.
Proof.
  intros o b mode x y z y' z' r fl Hy Hz. destruct o; cbn [has_f1 freads_vd] in Hy, Hz; cbn [fvrel fvres]; try rewrite <- (Hy eq_refl); try rewrite <- (Hz eq_refl); auto.
Qed.
Lemma fvrel_nan_other : forall o b mode x y z y' z' r fl, (has_f1 o = true -> y = y') -> (freads_vd o = true -> z = z') ->
  fvrel_nan o b mode true x y z r fl -> fvrel_nan o b mode true x y' z' r fl.
Proof.
  intros o b mode x y z y' z' r fl Hy Hz. unfold fvrel_nan. destruct (host_fmt o b) eqn:E; [| apply fvrel_other; assumption].
  destruct o; try discriminate E; cbn [has_f1 freads_vd] in Hy, Hz; cbn [fvres]; try rewrite <- (Hy eq_refl); try rewrite <- (Hz eq_refl); auto.
Qed.

Lemma second_operand : forall vb rf fpr sew I j wd w2 w1, byte_mem rf -> In sew (fsews (fi_op I)) -> fwidths (fi_op I) sew = (wd, w2, w1) -> not_wired_wrong (fi_op I) = true ->
  scalar_boxed fpr sew I -> has_f1 (fi_op I) = true ->
  src1_of vb (vi_of fpr I) w1 rf j = fsrc_elem vb rf fpr w1 (fi_src1 I) j /\ 0 <= src1_of vb (vi_of fpr I) w1 rf j < 2 ^ (8 * w1).
Proof.
  intros vb rf fpr sew I j wd w2 w1 Hb Hs Hw NW SB F1. unfold src1_of. cbn [vi_of vi_op vi_src1]. rewrite surrogate_src1, F1. unfold operand1, fsrc_elem, src1_elem, scalar_boxed in *.
  assert (W1 : w1 = sew /\ (sew = 4 \/ sew = 8)).
  { destruct (fi_op I); try discriminate F1; try discriminate NW; cbn [fwidths] in Hw; injection Hw as <- <- <-; split; try reflexivity; cbn [fsews In] in Hs; clear - Hs; lia. }
  destruct W1 as [-> SEW]. assert (S0 : 0 <= sew) by (clear - SEW; lia). destruct (fi_src1 I) as [r | r].
  - split; [reflexivity |]. apply (elem_inw vb rf r sew j Hb S0).
  - destruct (SB F1) as [R B].
    assert (E : match fi_op I with Vfmerge => Vec r | _ => Scalar (fpr r) end = Scalar (fpr r)) by (destruct (fi_op I); try discriminate NW; reflexivity). rewrite E.
    split; [| apply (wrap_range (8 * sew)); clear - S0; lia]. unfold unbox. rewrite B. unfold wrap. destruct SEW as [-> | ->]; reflexivity.
Qed.

Definition covered (o : fvop) : bool := hosted o || plain o || from_int o || to_integer o || recip o.
(** Rounding by the host. *)
Definition rounded_by_host (o : fvop) : bool := hosted o || from_int o.

Lemma elem_correct : forall H wide o sew frm x y z wd w2 w1, host_ok H -> host_quiet_double H -> covered o = true -> In sew (fsews o) -> fwidths o sew = (wd, w2, w1) ->
  0 <= frm <= 4 -> (rounded_by_host o = true -> frm <= 3) -> fv_safe o (8 * sew) x ->
  0 <= x < 2 ^ (8 * w2) -> (has_f1 o = true -> 0 <= y < 2 ^ (8 * w1)) -> (freads_vd o = true -> 0 <= z < 2 ^ (8 * wd)) ->
  exists r fl, elem_fn H wide o (8 * sew) frm true x y z = Some (r, fl) /\ fvrel_nan o (8 * sew) frm true x y z (wrap (8 * wd) r) fl.
Proof.
  intros H wide o sew frm x y z wd w2 w1 HO HQ Co Hs Hw Hf Hr Safe Hx Hy Hz. unfold covered in Co. unfold rounded_by_host in Hr.
  destruct (hosted o) eqn:Eh; [apply (hosted_elem H wide o sew frm x y z wd w2 w1); try assumption; specialize (Hr eq_refl); lia |].
  assert (NF : host_fmt o (8 * sew) = None) by (destruct o; try discriminate Eh; try discriminate Co; reflexivity).
  unfold fvrel_nan. rewrite NF. cbn [orb] in *.
  destruct (plain o) eqn:Ep; [apply (plain_elem H wide o sew frm x y z wd w2 w1); assumption |].
  destruct (from_int o) eqn:Ef; [apply (from_int_elem H wide o sew frm x y z wd w2 w1); try assumption; specialize (Hr eq_refl); lia |].
  destruct (to_integer o) eqn:Et; [apply (to_integer_elem H wide o sew frm x y z wd w2 w1); assumption |].
  apply (recip_elem H wide o sew frm x y z wd w2 w1); assumption.
Qed.

(** The conditions common to all the theorems. *)
Definition fready (st : fstate) (I : fvinst) : Prop :=
  let c := cfg (vs st) in
  flegal (vlenb c) (sew c) (lmul8 c) (vl c) I /\ byte_mem (regs (vs st)) /\ vexc c = false /\ 0 <= vstart c /\ 0 <= frm st <= 4.

(** After the instruction: the elements and the flags; everything else is as it was, vstart is 0. *)
Definition fdone (R : fvop -> Z -> Z -> bool -> Z -> Z -> Z -> Z -> Z -> Prop) (st : fstate) (I : fvinst) (st' : fstate) : Prop :=
  let c := cfg (vs st) in
  felementwise R (vlenb c) (sew c) (frm st) (vstart c) (vl c) (fpr st) I (regs (vs st)) (regs (vs st')) (fflags st) (fflags st') /\
  cfg (vs st') = set_vstart c 0 /\ fpr st' = fpr st /\ frm st' = frm st.

Lemma fexec_correct : forall (R : fvop -> Z -> Z -> bool -> Z -> Z -> Z -> Z -> Z -> Prop) H wide st I, host_ok H -> host_quiet_double H -> fready st I -> covered (fi_op I) = true ->
  (rounded_by_host (fi_op I) = true -> frm st <= 3) ->
  scalar_boxed (fpr st) (sew (cfg (vs st))) I ->
  (forall j, factive (vlenb (cfg (vs st))) (vstart (cfg (vs st))) (vl (cfg (vs st))) (regs (vs st)) I j ->
     fv_safe (fi_op I) (8 * sew (cfg (vs st))) (elem (vlenb (cfg (vs st))) (regs (vs st)) (fi_vs2 I) (snd (fst (fwidths (fi_op I) (sew (cfg (vs st)))))) j)) ->
  (forall b x y z r fl, fvrel_nan (fi_op I) b (frm st) true x y z r fl -> R (fi_op I) b (frm st) true x y z r fl) ->
  exists st', fexec H wide st I = Some st' /\ fdone R st I st'.
Proof.
  intros R H wide st I HO HQ (HL & Hb & Hx & Hst & Hrm) Co H3 SB Safe HR.
  destruct (fwidths (fi_op I) (sew (cfg (vs st)))) as [[wd w2] w1] eqn:E. cbn [fst snd] in Safe.
  assert (NW : not_wired_wrong (fi_op I) = true) by (clear - Co; destruct (fi_op I); try discriminate Co; reflexivity).
  assert (HS : In (sew (cfg (vs st))) (fsews (fi_op I))) by (unfold flegal in HL; rewrite E in HL; apply HL).
  assert (W : 0 <= wd /\ 0 <= w2).
  { clear - E HS. assert (0 <= sew (cfg (vs st))) by (destruct (fi_op I); cbn [fsews In] in HS; lia). destruct (fi_op I); cbn [fwidths] in E; (apply pair_equal_spec in E; destruct E as [E E3]; apply pair_equal_spec in E; destruct E as [E1 E2]; lia). }
  destruct (fexec_elementwise R H wide st I wd w2 w1 HL NW Hb Hx Hst Hrm E) as (st' & EX & FE & C1 & C2 & C3).
  - intros j Hj. set (c := cfg (vs st)) in *. set (rf := regs (vs st)) in *.
    assert (Y : has_f1 (fi_op I) = true -> src1_of (vlenb c) (vi_of (fpr st) I) w1 rf j = fsrc_elem (vlenb c) rf (fpr st) w1 (fi_src1 I) j /\ 0 <= src1_of (vlenb c) (vi_of (fpr st) I) w1 rf j < 2 ^ (8 * w1)).
    { intros F1. apply (second_operand (vlenb c) rf (fpr st) (sew c) I j wd w2 w1); assumption. }
    assert (ZZ : freads_vd (fi_op I) = true -> vd_of (vlenb c) (vi_of (fpr st) I) wd rf j = elem (vlenb c) rf (fi_vd I) wd j).
    { intros F2. unfold vd_of. cbn [vi_of vi_op vi_vd]. rewrite surrogate_vd, F2. reflexivity. }
    destruct (elem_correct H wide (fi_op I) (sew c) (frm st) (elem (vlenb c) rf (fi_vs2 I) w2 j) (src1_of (vlenb c) (vi_of (fpr st) I) w1 rf j) (vd_of (vlenb c) (vi_of (fpr st) I) wd rf j) wd w2 w1)
      as (r & fl & E1 & E2); try assumption.
    + apply Safe. exact Hj.
    + apply (elem_inw (vlenb c) rf (fi_vs2 I) w2 j Hb (proj2 W)).
    + intros F1. apply (Y F1).
    + intros F2. rewrite (ZZ F2). apply (elem_inw (vlenb c) rf (fi_vd I) wd j Hb (proj1 W)).
    + exists r, fl. split; [exact E1 |]. apply HR. revert E2. apply fvrel_nan_other; [intros F1; apply (Y F1) | exact ZZ].
  - exists st'. split; [exact EX |]. split; [exact FE |]. repeat split; assumption.
Qed.

(** ** Counterexamples *)

(** The instruction completes but not as the specification [R] says. *)
Definition fdeviates (R : fvop -> Z -> Z -> bool -> Z -> Z -> Z -> Z -> Z -> Prop) (H : host) (wide : bool) (st : fstate) (I : fvinst) : Prop :=
  fready st I /\ exists st', fexec H wide st I = Some st' /\ ~ fdone R st I st'.

Lemma deviates_at_0 : forall (R : fvop -> Z -> Z -> bool -> Z -> Z -> Z -> Z -> Z -> Prop) H wide st I wd w2 w1 m x y z e fl, let c := cfg (vs st) in
  fready st I -> vstart c = 0 -> vl c = 1 -> fflags st = 0 -> fwidths (fi_op I) (sew c) = (wd, w2, w1) ->
  (fmbit (vlenb c) (regs (vs st)) I 0, elem (vlenb c) (regs (vs st)) (fi_vs2 I) w2 0, fsrc_elem (vlenb c) (regs (vs st)) (fpr st) w1 (fi_src1 I) 0,
   elem (vlenb c) (regs (vs st)) (fi_vd I) wd 0) = (m, x, y, z) -> fmerges (fi_op I) || m = true ->
  option_map (fun s => (elem (vlenb c) (regs (vs s)) (fi_vd I) wd 0, fflags s)) (fexec H wide st I) = Some (e, fl) ->
  (forall ra, R (fi_op I) (8 * sew c) (frm st) m x y z e ra -> (forall k, 0 <= k -> Z.testbit fl k = Z.testbit ra k) -> False) ->
  fdeviates R H wide st I.
Proof.
  intros R H wide st I wd w2 w1 m x y z e fl c RD V0 V1 F0 E OP A OB K. split; [exact RD |]. destruct (fexec H wide st I) as [st' |]; [| discriminate OB]. injection OB as O1 O2.
  exists st'. split; [reflexivity |]. intros (FE & _). unfold felementwise in FE. fold c in FE. rewrite E in FE. destruct FE as (raised & R1 & _ & R3). rewrite O2, F0 in R3.
  apply pair_equal_spec in OP. destruct OP as [OP P4]. apply pair_equal_spec in OP. destruct OP as [OP P3]. apply pair_equal_spec in OP. destruct OP as [P1 P2].
  assert (A0 : factive (vlenb c) (vstart c) (vl c) (regs (vs st)) I 0) by (split; [rewrite V0, V1; lia | rewrite P1; exact A]).
  specialize (R1 0 A0). rewrite O1, P1, P2, P3, P4 in R1. apply (K (raised 0) R1). intros k Hk. specialize (R3 k Hk). rewrite Z.bits_0 in R3.
  apply eq_true_iff_eq. rewrite R3. split; [intros [D | (j & [J _] & T)]; [discriminate D | assert (j = 0) as -> by (rewrite V0, V1 in J; lia); exact T] | intros T; right; exists 0; split; assumption].
Qed.

(** Registers of 16 bytes with given contents. *)
Definition of_regs (g : Z -> Z) : mem := fun a => (g (a / 16) / 256 ^ (a mod 16)) mod 256.
Lemma of_regs_bytes : forall g, byte_mem (of_regs g).
Proof. intros g a. unfold of_regs. apply Z.mod_pos_bound. lia. Qed.
Definition fdemo (g : Z -> Z) (sew vl : Z) (fp : Z -> Z) (mode : Z) : fstate :=
  {| vs := {| regs := of_regs g;
              cfg := {| vlenb := 16; vtype := 0; vl := vl; vlmax := 16 / sew; lmul8 := 8; sew := sew;
                        vta := false; vma := false; vstart := 0; vxsat := false; vxrm := 0; vexc := false; stored := fun _ => 0 |} |};
     fpr := fp; frm := mode; fflags := 0 |}.
