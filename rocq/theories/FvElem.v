(** Element results of the vector floating-point instructions. *)
From Coq Require Import ZArith Bool List Lia.
From Verif Require Import Bits IeeeSpec FpSpec FarithSpec IntModel FpModel FarithModel FpProofs FpCvt FpWiden FarithProofs FarithExec HalfProofs HalfConv HalfArith FvSpec FvModel FvWide SqrtWide.
Import ListNotations.
Local Open Scope Z_scope.

Lemma ffmt_cases : forall b, ffmt b = single \/ ffmt b = double.
Proof. intros b. unfold ffmt. destruct (b =? 64); auto. Qed.
Lemma ctype_ffmt : forall b, ctype b = ffmt b.
Proof. reflexivity. Qed.
Lemma host_rm_id : forall frm, 0 <= frm <= 3 -> host_rm frm = frm.
Proof. intros frm H. assert (frm = 0 \/ frm = 1 \/ frm = 2 \/ frm = 3) as [-> | [-> | [-> | ->]]] by lia; reflexivity. Qed.
Lemma sd_ok2 : forall f, f = single \/ f = double -> okf f.
Proof. intros f [-> | ->]; [exact ok_single | exact ok_double]. Qed.

(** ** Same datum, NaNs of the same kind *)
Definition sim (f : fmt) (a a' : Z) : Prop :=
  is_nan f a = is_nan f a' /\ is_snan f a = is_snan f a' /\ (is_nan f a = false -> a = a').
Lemma sim_refl : forall f a, sim f a a.
Proof. intros f a. repeat split. Qed.
Lemma sim_flip : forall f a a', okf f -> 0 <= a < 2 ^ width f -> 0 <= a' < 2 ^ width f -> sim f a a' -> sim f (flip f a) (flip f a').
Proof.
  intros f a a' Ok Ha Ha' (S1 & S2 & S3). destruct (flip_facts f a Ok Ha) as (_ & _ & _ & _ & N & SN & _). destruct (flip_facts f a' Ok Ha') as (_ & _ & _ & _ & N' & SN' & _).
  unfold sim. rewrite N, N', SN, SN'. split; [exact S1 |]. split; [exact S2 |]. intros E. rewrite (S3 E). reflexivity.
Qed.
Ltac sims S1 S2 := let n1 := fresh in let s1 := fresh in let e1 := fresh in let n2 := fresh in let s2 := fresh in let e2 := fresh in
  destruct S1 as (n1 & s1 & e1); destruct S2 as (n2 & s2 & e2); rewrite <- n1, <- n2, <- s1, <- s2;
  match goal with |- context [is_nan ?f ?a || is_nan ?f ?b] => destruct (is_nan f a) eqn:?, (is_nan f b) eqn:?; try reflexivity end;
  rewrite <- (e1 eq_refl), <- (e2 eq_refl); reflexivity.
Lemma sim_add : forall f rm a a' b b', sim f a a' -> sim f b b' -> ieee_add f rm a b = ieee_add f rm a' b'.
Proof. intros f rm a a' b b' S1 S2. unfold ieee_add. sims S1 S2. Qed.
Lemma sim_mul : forall f rm a a' b b', sim f a a' -> sim f b b' -> ieee_mul f rm a b = ieee_mul f rm a' b'.
Proof. intros f rm a a' b b' S1 S2. unfold ieee_mul. sims S1 S2. Qed.
Lemma sim_sub : forall f rm a a' b b', okf f -> 0 <= b < 2 ^ width f -> 0 <= b' < 2 ^ width f -> sim f a a' -> sim f b b' -> ieee_sub f rm a b = ieee_sub f rm a' b'.
Proof. intros f rm a a' b b' Ok Hb Hb' S1 S2. unfold ieee_sub. apply sim_add; [exact S1 | apply sim_flip; assumption]. Qed.

(** ** Conversion of the operands of widening instructions *)
Lemma to_double_sim : forall H rm x, host_ok H -> host_quiet_double H -> 0 <= rm <= 3 -> 0 <= x < 2 ^ 32 ->
  snd (to_double H rm x) = snd (ieee_cvt single double rm x) /\ 0 <= fst (to_double H rm x) < 2 ^ 64 /\
  sim double (fst (to_double H rm x)) (fst (ieee_cvt single double rm x)) /\ 0 <= fst (ieee_cvt single double rm x) < 2 ^ 64 /\
  is_snan double (fst (ieee_cvt single double rm x)) = false.
Proof.
  intros H rm x HO HQ Hrm Hx. destruct (HO single rm x 0 0 (or_introl eq_refl) Hrm Hx ltac:(cbn; lia) ltac:(cbn; lia)) as (_ & _ & _ & _ & _ & _ & C & _).
  destruct (C double (or_intror eq_refl)) as (L1 & L2 & L3). destruct (HQ rm x 0 Hrm) as [Q _]. specialize (Q Hx). unfold to_double.
  destruct (is_nan single x) eqn:N.
  - assert (E : fst (ieee_cvt single double rm x) = canonical_nan double) by (unfold ieee_cvt; rewrite N; reflexivity). rewrite E in *.
    assert (NC : is_nan double (canonical_nan double) = true) by (vm_compute; reflexivity). assert (SC : is_snan double (canonical_nan double) = false) by (vm_compute; reflexivity).
    rewrite NC in L3. split; [exact L1 |]. split; [exact L2 |]. split; [| split; [vm_compute; split; congruence | exact SC]].
    unfold sim. rewrite L3, NC, Q, SC. repeat split. discriminate.
  - destruct (cvt_wide rm x Hx N) as (A1 & A2 & A3 & _). rewrite A3 in L3. split; [exact L1 |]. split; [exact L2 |]. rewrite L3. split; [apply sim_refl |].
    split; [exact A2 |]. unfold is_snan. rewrite A3. reflexivity.
Qed.

(** Two converted operands, then an operation that follows IEEE 754. *)
Lemma wide2_like : forall H rm x y (op spec : Z -> Z -> Z * Z), host_ok H -> host_quiet_double H -> 0 <= rm <= 3 -> 0 <= x < 2 ^ 32 -> 0 <= y < 2 ^ 32 ->
  (forall a b a' b', 0 <= a < 2 ^ 64 -> 0 <= b < 2 ^ 64 -> 0 <= a' < 2 ^ 64 -> 0 <= b' < 2 ^ 64 -> sim double a a' -> sim double b b' ->
     a' = fst (ieee_cvt single double rm x) -> b' = fst (ieee_cvt single double rm y) -> is_snan double a' = false -> is_snan double b' = false ->
     like double (op a b) (spec a' b')) ->
  like double (then_ (to_double H rm x) (fun x => then_ (to_double H rm y) (fun y => op x y))) (on_wide rm x y spec).
Proof.
  intros H rm x y op spec HO HQ Hrm Hx Hy K. destruct (to_double_sim H rm x HO HQ Hrm Hx) as (X1 & X2 & X3 & X4 & X5). destruct (to_double_sim H rm y HO HQ Hrm Hy) as (Y1 & Y2 & Y3 & Y4 & Y5).
  specialize (K _ _ _ _ X2 Y2 X4 Y4 X3 Y3 eq_refl eq_refl X5 Y5). unfold then_, on_wide.
  destruct (ieee_cvt single double rm x) as [xs fx]. destruct (ieee_cvt single double rm y) as [ys fy]. cbn [fst snd] in *.
  destruct (op (fst (to_double H rm x)) (fst (to_double H rm y))) as [r fl]. destruct (spec xs ys) as [r' fl']. cbn [fst snd] in *. destruct K as (K1 & K2 & K3).
  unfold like. cbn [fst snd] in *. rewrite X1, Y1, K1. split; [reflexivity |]. split; assumption.
Qed.

(** Multiply, then add: the fused operation. *)
Lemma two_step : forall H rm a b c a' b' x y np na, host_ok H -> host_quiet_double H -> 0 <= rm <= 3 -> 0 <= x < 2 ^ 32 -> 0 <= y < 2 ^ 32 ->
  0 <= a < 2 ^ 64 -> 0 <= b < 2 ^ 64 -> 0 <= a' < 2 ^ 64 -> 0 <= b' < 2 ^ 64 -> 0 <= c < 2 ^ 64 -> sim double a a' -> sim double b b' ->
  a' = fst (ieee_cvt single double rm x) -> b' = fst (ieee_cvt single double rm y) -> is_snan double a' = false -> is_snan double b' = false ->
  like double (then_ (h_mul H double rm b a) (fun p => if (na : bool) then h_sub H double rm (opt_flip double np p) c else h_add H double rm (opt_flip double np p) c))
    (fused double rm np na b' a' c).
Proof.
  intros H rm a b c a' b' x y np na HO HQ Hrm Hx Hy Ha Hb Ha' Hb' Hc SA SB EA EB NA NB.
  destruct (HO double rm b a 0 (or_intror eq_refl) Hrm Hb Ha ltac:(vm_compute; split; congruence)) as (_ & _ & (M1 & M2 & M3) & _).
  rewrite (sim_mul double rm b b' a a' SB SA) in M1, M3. destruct (HQ rm b a Hrm) as [_ Q]. specialize (Q Hb Ha).
  remember (h_mul H double rm b a) as hp eqn:Ehp. clear Ehp. destruct hp as [p fp]. cbn [fst snd] in *. change (2 ^ width double) with (2 ^ 64) in *.
  (* the second operation is an addition *)
  assert (FC : 0 <= flip double c < 2 ^ 64) by (apply (flip_facts double c ok_double Hc)).
  assert (FP : 0 <= opt_flip double np p < 2 ^ 64) by (destruct np; [apply (flip_facts double p ok_double M2) | exact M2]).
  assert (OC : 0 <= opt_flip double na c < 2 ^ 64) by (destruct na; assumption).
  assert (ADD : like double (if na then h_sub H double rm (opt_flip double np p) c else h_add H double rm (opt_flip double np p) c)
                  (ieee_add double rm (opt_flip double np p) (opt_flip double na c))).
  { destruct (HO double rm (opt_flip double np p) c 0 (or_intror eq_refl) Hrm FP Hc ltac:(vm_compute; split; congruence)) as (A & S & _).
    destruct na; [exact S | exact A]. }
  unfold then_. cbn [fst snd].
  remember (if na then _ else _) as res eqn:Eres. clear Eres. destruct res as [r fl]. destruct ADD as (D1 & D2 & D3).
  assert (NanC : is_nan double (canonical_nan double) = true) by (vm_compute; reflexivity).
  assert (NA' : is_nan double a' = is_nan single x).
  { rewrite EA. destruct (is_nan single x) eqn:N; [unfold ieee_cvt; rewrite N; vm_compute; reflexivity |]. apply (cvt_wide rm x Hx N). }
  assert (NB' : is_nan double b' = is_nan single y).
  { rewrite EB. destruct (is_nan single y) eqn:N; [unfold ieee_cvt; rewrite N; vm_compute; reflexivity |]. apply (cvt_wide rm y Hy N). }
  assert (FB : forall t, (t = np) -> is_nan double (opt_flip double t b') = is_nan double b' /\ is_snan double (opt_flip double t b') = is_snan double b' /\
    is_inf double (opt_flip double t b') = is_inf double b' /\ is_zero double (opt_flip double t b') = is_zero double b').
  { intros t _. destruct t; cbn [opt_flip]; [| repeat split]. destruct (flip_facts double b' ok_double Hb') as (_ & _ & _ & _ & F1 & F2 & F3 & F4 & _). repeat split; assumption. }
  destruct (FB np eq_refl) as (FB1 & FB2 & FB3 & FB4). clear FB.
  assert (PN : is_nan double p = true -> is_nan double (opt_flip double np p) = true /\ is_snan double (opt_flip double np p) = false).
  { intros N. destruct np; cbn [opt_flip]; [| split; assumption]. destruct (flip_facts double p ok_double M2) as (_ & _ & _ & _ & F1 & F2 & _). rewrite F1, F2. split; assumption. }
  unfold fused, like. cbn [fst snd].
  destruct (is_nan double a' || is_nan double b') eqn:N.
  - (* a NaN operand *)
    assert (E : ieee_mul double rm b' a' = (canonical_nan double, 0)).
    { unfold ieee_mul. rewrite orb_comm, N, NA, NB. reflexivity. }
    rewrite E in M1, M3. cbn [fst snd] in M1, M3. rewrite NanC in M3. destruct (PN M3) as [P1 P2].
    assert (E2 : ieee_add double rm (opt_flip double np p) (opt_flip double na c) = nan_result double (is_snan double (opt_flip double na c))).
    { unfold ieee_add. rewrite P1, P2. reflexivity. }
    assert (IZ : (is_inf double (opt_flip double np b') && is_zero double a' || is_zero double (opt_flip double np b') && is_inf double a') = false).
    { rewrite FB3, FB4. assert (K : forall v, is_nan double v = true -> is_inf double v = false /\ is_zero double v = false).
      { intros v. unfold is_nan, is_inf, is_zero, special. destruct (Z.eqb_spec (expo double v) (2 ^ ew double - 1)) as [-> | _]; [| discriminate]. cbn [andb].
        destruct (frac double v =? 0); [discriminate |]. split; reflexivity. }
      apply orb_true_iff in N. destruct N as [N | N]; destruct (K _ N) as [-> ->]; rewrite ?andb_false_r; reflexivity. }
    assert (E3 : ieee_fma double rm (opt_flip double np b') a' (opt_flip double na c) = nan_result double (is_snan double (opt_flip double na c))).
    { unfold ieee_fma. rewrite FB1, FB2, IZ, NA, NB, (orb_comm (is_nan double b')), N. cbn [orb]. rewrite orb_false_r. reflexivity. }
    rewrite E3. rewrite E2 in D1, D3. cbn [fst snd] in D1, D2, D3. unfold nan_result in *. cbn [fst snd] in *. rewrite M1, D1, Z.lor_0_l. split; [reflexivity |]. split; [exact D2 |]. exact D3.
  - apply orb_false_iff in N. destruct N as [N1 N2]. rewrite NA' in N1. rewrite NB' in N2.
    pose proof (wide_product rm rm rm y x Hy Hx N2 N1) as WP. cbv zeta in WP. rewrite <- EA, <- EB in WP. rewrite <- NA' in N1. rewrite <- NB' in N2.
    destruct (is_inf double b' && is_zero double a' || is_zero double b' && is_inf double a') eqn:IZ.
    + rewrite WP in M1, M3. unfold invalid in M1, M3. cbn [fst snd] in M1, M3. rewrite NanC in M3. destruct (PN M3) as [P1 P2].
      assert (E2 : ieee_add double rm (opt_flip double np p) (opt_flip double na c) = nan_result double (is_snan double (opt_flip double na c))).
      { unfold ieee_add. rewrite P1, P2. reflexivity. }
      assert (E3 : ieee_fma double rm (opt_flip double np b') a' (opt_flip double na c) = invalid double).
      { unfold ieee_fma. rewrite FB1, FB2, FB3, FB4, IZ, NA, NB, N1, N2. cbn [orb]. rewrite orb_true_r. destruct (is_nan double (opt_flip double na c)); reflexivity. }
      rewrite E3. rewrite E2 in D1, D3. unfold nan_result in D1, D3. cbn [fst snd] in D1, D2, D3. unfold invalid. cbn [fst snd]. rewrite NanC in D3 |- *. rewrite M1, D1.
      split; [destruct (is_snan double (opt_flip double na c)); reflexivity |]. split; assumption.
    + destruct WP as (W1 & W2). rewrite W1 in M1. pose proof W2 as (_ & WN & _). rewrite WN in M3. rewrite <- M3 in W2.
      assert (PR : product (opt_flip double np b') a' (opt_flip double np p)) by (destruct np; cbn [opt_flip]; [apply product_flip; assumption | exact W2]).
      rewrite (add_product rm _ _ _ (opt_flip double na c) PR (eq_trans FB1 N2) N1) in D1, D3. rewrite M1, Z.lor_0_l. cbn [fst snd] in D1, D2, D3. split; [exact D1 |]. split; assumption.
Qed.

(** ** Instructions computed by the host *)
Definition hosted (o : fvop) : bool :=
  match o with
  | Vfadd | Vfsub | Vfrsub | Vfmul | Vfdiv | Vfrdiv | Vfsqrt | Vfmadd | Vfnmadd | Vfmsub | Vfnmsub | Vfmacc | Vfnmacc | Vfmsac | Vfnmsac
  | Vfwadd | Vfwsub | Vfwmul | Vfwmacc | Vfwnmacc | Vfwmsac | Vfwnmsac | VfwcvtFF | VfncvtFF => true
  | _ => false end.

Lemma like_flip2 : forall H f rm p q a np na, host_ok H -> f = single \/ f = double -> 0 <= rm <= 3 ->
  0 <= p < 2 ^ width f -> 0 <= q < 2 ^ width f -> 0 <= a < 2 ^ width f ->
  like f (h_fma H f rm (opt_flip f np p) q (opt_flip f na a)) (fused f rm np na p q a).
Proof.
  intros H f rm p q a np na HO Hf Hrm Hp Hq Ha. unfold fused.
  assert (O : forall t v, 0 <= v < 2 ^ width f -> 0 <= opt_flip f t v < 2 ^ width f).
  { intros [] v Hv; cbn [opt_flip]; [apply (flip_facts f v (sd_ok2 f Hf) Hv) | exact Hv]. }
  apply (HO f rm _ _ _ Hf Hrm (O np p Hp) Hq (O na a Ha)).
Qed.

Lemma sqrt_like : forall H wide f rm x, host_ok H -> f = single \/ f = double -> 0 <= rm <= 3 -> 0 <= x < 2 ^ width f ->
  is_nan f x = is_snan f x -> like f (SqrtHelper H wide f rm x) (ieee_sqrt f rm x).
Proof.
  intros H wide f rm x HO Hf Hrm Hx NS. pose proof (sd_ok2 f Hf) as Ok.
  assert (Hin : In f formats) by (destruct Hf as [-> | ->]; cbn; auto).
  assert (CN : is_nan f (canonical_nan f) = true /\ 0 <= canonical_nan f < 2 ^ width f) by (destruct Hf as [-> | ->]; vm_compute; repeat split; congruence).
  assert (INV : like f (kCanonicalNaN f, fNV) (invalid f)).
  { rewrite canonical_eq by exact Hin. unfold like, invalid. cbn [fst snd]. destruct CN as [-> CR]. split; [reflexivity |]. split; [exact CR | reflexivity]. }
  unfold SqrtHelper, ieee_sqrt. rewrite IsNaN_eq by exact Ok. destruct (is_nan f x) eqn:N; cbn [orb]; [rewrite <- NS; exact INV |].
  pose proof (magnitude_nonneg f x Ok) as MN. assert (Z0 : units f 0 = 0) by (unfold units; rewrite magnitude_0 by exact Ok; destruct (sign f 0); reflexivity).
  assert (N0 : is_nan f 0 = false) by (destruct Hf as [-> | ->]; reflexivity).
  unfold host_lt, host_eq. rewrite N, N0, Z0. cbn [negb andb]. rewrite units_zero by exact Ok.
  destruct (is_zero f x) eqn:IZ.
  - assert (U : units f x = 0) by (apply Z.eqb_eq; rewrite units_zero by exact Ok; exact IZ). rewrite U. cbn [Z.ltb]. change (0 <? 0) with false. cbv iota.
    unfold like. cbn [fst snd]. rewrite N. repeat split; apply Hx.
  - assert (U : units f x <> 0) by (apply Z.eqb_neq; rewrite units_zero by exact Ok; exact IZ).
    destruct (sign f x) eqn:S.
    + replace (units f x <? 0) with true by (symmetry; apply Z.ltb_lt; unfold units in *; rewrite S in *; clear - U MN; lia). exact INV.
    + replace (units f x <? 0) with false by (symmetry; apply Z.ltb_ge; unfold units in *; rewrite S in *; clear - U MN; lia).
      rewrite (sqrt_call_ok H wide f rm x HO Hf Hrm Hx N IZ S).
      assert (NB : number f (fst (ieee_sqrt f rm x))) by (apply sqrt_number; try assumption; left; exact S).
      assert (L : like f (ieee_sqrt f rm x) (ieee_sqrt f rm x)) by (unfold like; destruct NB as [NR NN]; rewrite NN; split; [reflexivity |]; split; [exact NR | reflexivity]).
      unfold ieee_sqrt in L. rewrite N, IZ, S in L. unfold ieee_sqrt. rewrite N, IZ, S. exact L.
Qed.

Lemma like_wrap : forall f w r s, width f = w -> like f r s -> wrap w (fst r) = fst r.
Proof. intros f w r s <- (_ & L & _). unfold wrap. apply Z.mod_small. exact L. Qed.

(** The mode does not matter in an exact conversion. *)
Lemma cvt_wide_mode : forall rm rm' x, 0 <= x < 2 ^ 32 -> fst (ieee_cvt single double rm x) = fst (ieee_cvt single double rm' x).
Proof.
  intros rm rm' x Hx. destruct (is_nan single x) eqn:N; [unfold ieee_cvt; rewrite N; reflexivity |].
  destruct (cvt_wide rm x Hx N) as (_ & A2 & A3 & A4 & A5 & A6). destruct (cvt_wide rm' x Hx N) as (_ & B2 & B3 & B4 & B5 & B6). change (2 ^ 64) with (2 ^ width double) in *.
  destruct (is_inf single x) eqn:I.
  - rewrite (inf_pattern double _ ok_double A2 A5), (inf_pattern double _ ok_double B2 B5), A4, B4. reflexivity.
  - specialize (A6 eq_refl). specialize (B6 eq_refl). destruct (Z.eq_dec (units single x * W) 0) as [Z0 | Z0].
    + rewrite Z0 in A6, B6. rewrite (zero_patterns double _ ok_double A2 A6), (zero_patterns double _ ok_double B2 B6), A4, B4. reflexivity.
    + apply (units_inj double); [exact ok_double | exact A2 | exact B2 | congruence | congruence].
Qed.

Lemma hosted_elem : forall H wide o sew frm x y z wd w2 w1, host_ok H -> host_quiet_double H -> hosted o = true -> In sew (fsews o) -> fwidths o sew = (wd, w2, w1) ->
  0 <= frm <= 3 -> fv_safe o (8 * sew) x ->
  0 <= x < 2 ^ (8 * w2) -> (has_f1 o = true -> 0 <= y < 2 ^ (8 * w1)) -> (freads_vd o = true -> 0 <= z < 2 ^ (8 * wd)) ->
  exists r fl, elem_fn H wide o (8 * sew) frm true x y z = Some (r, fl) /\ fvrel_nan o (8 * sew) frm true x y z (wrap (8 * wd) r) fl.
Proof.
  intros H wide o sew frm x y z wd w2 w1 HO HQ Ho Hs Hw Hf Safe Hx Hy Hz.
  assert (RM : host_rm frm = frm) by (apply host_rm_id; exact Hf).
  assert (FIN : forall f r s, width f = 8 * wd -> like f r s -> host_fmt o (8 * sew) = Some f -> fvres o (8 * sew) frm true x y z = s ->
    elem_fn H wide o (8 * sew) frm true x y z = Some r ->
    exists r0 fl, elem_fn H wide o (8 * sew) frm true x y z = Some (r0, fl) /\ fvrel_nan o (8 * sew) frm true x y z (wrap (8 * wd) r0) fl).
  { intros f r s W L HF RS E. exists (fst r), (snd r). rewrite E. split; [destruct r; reflexivity |]. unfold fvrel_nan. rewrite HF, RS, (like_wrap f (8 * wd) r s W L).
    destruct r; exact L. }
  assert (SEW : sew = 4 \/ sew = 8) by (destruct o; try discriminate Ho; cbn in Hs; clear - Hs; lia).
  set (f := ffmt (8 * sew)) in *.
  assert (Ff : f = single \/ f = double) by apply ffmt_cases.
  assert (Wf : width f = 8 * sew) by (unfold f; destruct SEW as [-> | ->]; reflexivity).
  assert (Of : okf f) by (apply sd_ok2; exact Ff).
  (* sew-wide operands *)
  assert (D : (wd = sew /\ w2 = sew /\ w1 = sew /\ host_fmt o (8 * sew) = Some f) \/ (sew = 4 /\ wd = 8 /\ w2 = 4 /\ w1 = 4 /\ host_fmt o (8 * sew) = Some double) \/ o = VfncvtFF).
  { destruct o; try discriminate Ho; cbn [fwidths] in Hw; injection Hw as E1 E2 E3; try (left; repeat split; (symmetry; assumption) || reflexivity); try (right; right; reflexivity);
      right; left; cbn [fsews In] in Hs; assert (E4 : sew = 4) by (clear - Hs; lia); rewrite E4 in *; repeat split; (symmetry; assumption) || reflexivity. }
  destruct D as [(-> & -> & -> & HF) | [(-> & -> & -> & -> & HF) | ->]].
  - rewrite <- Wf in Hx, Hy, Hz.
    assert (HOST : forall a b c, 0 <= a < 2 ^ width f -> 0 <= b < 2 ^ width f -> 0 <= c < 2 ^ width f -> _) by (intros a b c Ha Hb Hc; exact (HO f frm a b c Ff Hf Ha Hb Hc)).
    assert (R0 : 0 <= 0 < 2 ^ width f) by (destruct Ff as [-> | ->]; cbn; lia).
    destruct o; try discriminate Ho; try (exfalso; cbn in HF; revert HF; fold f; unfold f; destruct SEW as [-> | ->]; cbn; discriminate); cbn [has_f1 freads_vd] in Hy, Hz;
      try specialize (Hy eq_refl); try specialize (Hz eq_refl).
    + destruct (HOST x y 0 Hx Hy R0) as (L & _). apply (FIN f _ _ Wf L HF eq_refl). cbn [elem_fn]. rewrite RM. reflexivity.
    + destruct (HOST x y 0 Hx Hy R0) as (_ & L & _). apply (FIN f _ _ Wf L HF eq_refl). cbn [elem_fn]. rewrite RM. reflexivity.
    + destruct (HOST y x 0 Hy Hx R0) as (_ & L & _). apply (FIN f _ _ Wf L HF eq_refl). cbn [elem_fn]. rewrite RM. reflexivity.
    + destruct (HOST x y 0 Hx Hy R0) as (_ & _ & L & _). apply (FIN f _ _ Wf L HF eq_refl). cbn [elem_fn]. rewrite RM. reflexivity.
    + destruct (HOST x y 0 Hx Hy R0) as (_ & _ & _ & L & _). apply (FIN f _ _ Wf L HF eq_refl). cbn [elem_fn]. rewrite RM. reflexivity.
    + destruct (HOST y x 0 Hy Hx R0) as (_ & _ & _ & L & _). apply (FIN f _ _ Wf L HF eq_refl). cbn [elem_fn]. rewrite RM. reflexivity.
    + assert (L : like f (SqrtHelper H wide f frm x) (ieee_sqrt f frm x)).
      { apply sqrt_like; assumption. }
      apply (FIN f _ _ Wf L HF eq_refl). cbn [elem_fn]. rewrite RM. reflexivity.
    + apply (FIN f _ _ Wf (like_flip2 H f frm y z x false false HO Ff Hf Hy Hz Hx) HF eq_refl). cbn [elem_fn]. rewrite RM. reflexivity.
    + apply (FIN f _ _ Wf (like_flip2 H f frm y z x true true HO Ff Hf Hy Hz Hx) HF eq_refl). cbn [elem_fn]. rewrite RM, !neg_flip by exact Of. reflexivity.
    + apply (FIN f _ _ Wf (like_flip2 H f frm y z x false true HO Ff Hf Hy Hz Hx) HF eq_refl). cbn [elem_fn]. rewrite RM, !neg_flip by exact Of. reflexivity.
    + apply (FIN f _ _ Wf (like_flip2 H f frm y z x true false HO Ff Hf Hy Hz Hx) HF eq_refl). cbn [elem_fn]. rewrite RM, !neg_flip by exact Of. reflexivity.
    + apply (FIN f _ _ Wf (like_flip2 H f frm y x z false false HO Ff Hf Hy Hx Hz) HF eq_refl). cbn [elem_fn]. rewrite RM. reflexivity.
    + apply (FIN f _ _ Wf (like_flip2 H f frm y x z true true HO Ff Hf Hy Hx Hz) HF eq_refl). cbn [elem_fn]. rewrite RM, !neg_flip by exact Of. reflexivity.
    + apply (FIN f _ _ Wf (like_flip2 H f frm y x z false true HO Ff Hf Hy Hx Hz) HF eq_refl). cbn [elem_fn]. rewrite RM, !neg_flip by exact Of. reflexivity.
    + apply (FIN f _ _ Wf (like_flip2 H f frm y x z true false HO Ff Hf Hy Hx Hz) HF eq_refl). cbn [elem_fn]. rewrite RM, !neg_flip by exact Of. reflexivity.
  - assert (SUB : forall a b a' b', 0 <= a < 2 ^ 64 -> 0 <= b < 2 ^ 64 -> 0 <= a' < 2 ^ 64 -> 0 <= b' < 2 ^ 64 -> sim double a a' -> sim double b b' ->
      like double (h_add H double frm a b) (ieee_add double frm a' b') /\ like double (h_sub H double frm a b) (ieee_sub double frm a' b') /\
      like double (h_mul H double frm a b) (ieee_mul double frm a' b')).
    { intros a b a' b' Ha Hb Ha' Hb' Sa Sb. destruct (HO double frm a b 0 (or_intror eq_refl) Hf Ha Hb ltac:(vm_compute; split; congruence)) as (L1 & L2 & L3 & _).
      rewrite (sim_add double frm a a' b b' Sa Sb) in L1. rewrite (sim_mul double frm a a' b b' Sa Sb) in L3.
      rewrite (sim_sub double frm a a' b b' ok_double Hb Hb' Sa Sb) in L2. split; [exact L1 |]. split; [exact L2 | exact L3]. }
    change (8 * 4) with 32 in *. change (8 * 8) with 64 in *.
    assert (ACC : forall np na, 0 <= y < 2 ^ 32 -> 0 <= z < 2 ^ 64 -> like double
      (then_ (to_double H frm x) (fun x => then_ (to_double H frm y) (fun y =>
         then_ (h_mul H double frm y x) (fun p => if (na : bool) then h_sub H double frm (opt_flip double np p) z else h_add H double frm (opt_flip double np p) z))))
      (on_wide frm x y (fun x y => fused double frm np na y x z))).
    { intros np na Hy' Hz'. apply (wide2_like H frm x y (fun x y => then_ (h_mul H double frm y x) (fun p => if (na : bool) then h_sub H double frm (opt_flip double np p) z else h_add H double frm (opt_flip double np p) z))
        (fun x y => fused double frm np na y x z) HO HQ Hf Hx Hy').
      intros a b a' b' Ha Hb Ha' Hb' Sa Sb Ea Eb Na Nb. apply (two_step H frm a b z a' b' x y np na); assumption. }
    destruct o; try discriminate Ho; try (exfalso; cbn in HF; discriminate HF); cbn [has_f1 freads_vd] in Hy, Hz; try specialize (Hy eq_refl); try specialize (Hz eq_refl).
    + apply (FIN double _ _ eq_refl (wide2_like H frm x y (h_add H double frm) (ieee_add double frm) HO HQ Hf Hx Hy
        (fun a b a' b' A B C D E F _ _ _ _ => proj1 (SUB a b a' b' A B C D E F))) HF eq_refl). cbn [elem_fn]. rewrite RM. reflexivity.
    + apply (FIN double _ _ eq_refl (wide2_like H frm x y (h_sub H double frm) (ieee_sub double frm) HO HQ Hf Hx Hy
        (fun a b a' b' A B C D E F _ _ _ _ => proj1 (proj2 (SUB a b a' b' A B C D E F)))) HF eq_refl). cbn [elem_fn]. rewrite RM. reflexivity.
    + apply (FIN double _ _ eq_refl (wide2_like H frm x y (h_mul H double frm) (ieee_mul double frm) HO HQ Hf Hx Hy
        (fun a b a' b' A B C D E F _ _ _ _ => proj2 (proj2 (SUB a b a' b' A B C D E F)))) HF eq_refl). cbn [elem_fn]. rewrite RM. reflexivity.
    + apply (FIN double _ _ eq_refl (ACC false false Hy Hz) HF eq_refl). cbn [elem_fn]. rewrite RM. reflexivity.
    + apply (FIN double _ _ eq_refl (ACC true true Hy Hz) HF eq_refl). cbn [elem_fn]. rewrite RM. unfold neg. unfold opt_flip, flip. reflexivity.
    + apply (FIN double _ _ eq_refl (ACC false true Hy Hz) HF eq_refl). cbn [elem_fn]. rewrite RM. reflexivity.
    + apply (FIN double _ _ eq_refl (ACC true false Hy Hz) HF eq_refl). cbn [elem_fn]. rewrite RM. unfold neg. unfold opt_flip, flip. reflexivity.
    + cbn [fv_safe] in Safe. assert (R0 : 0 <= 0 < 2 ^ 32) by (split; reflexivity || discriminate).
      destruct (HO single 0 x 0 0 (or_introl eq_refl) ltac:(lia) Hx R0 R0) as (_ & _ & _ & _ & _ & _ & C & _). destruct (C double (or_intror eq_refl)) as (C1 & C2 & C3).
      assert (FL : snd (ieee_cvt single double frm x) = 0).
      { destruct (is_nan single x) eqn:N; [unfold ieee_cvt; rewrite N, Safe; reflexivity |]. apply (cvt_wide frm x Hx N). }
      rewrite (cvt_wide_mode 0 frm x Hx) in C3.
      apply (FIN double (fst (h_cvt H single double 0 x), 0) (ieee_cvt single double frm x) eq_refl); [| exact HF | reflexivity | reflexivity].
      unfold like. cbn [fst snd]. rewrite FL. split; [reflexivity |]. split; [exact C2 | exact C3].
  - cbn [fsews In] in Hs. assert (E4 : sew = 4) by (clear - Hs; lia). subst sew. cbn in Hw. injection Hw as <- <- <-. change (8 * 8) with 64 in *. change (8 * 4) with 32 in *.
    assert (R0 : 0 <= 0 < 2 ^ 64) by (split; reflexivity || discriminate).
    destruct (HO double frm x 0 0 (or_intror eq_refl) Hf Hx R0 R0) as (_ & _ & _ & _ & _ & _ & C & _).
    apply (FIN single _ _ eq_refl (C single (or_introl eq_refl)) eq_refl eq_refl). cbn [elem_fn]. rewrite RM. reflexivity.
Qed.
