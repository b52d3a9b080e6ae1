(** Whole-instruction correctness. *)
From Coq Require Import ZArith Bool List Lia.
From Verif Require Import Bits Memory VelemSpec VcfgModel VelemModel VelemProofs1 VelemProofs2 VelemProofs3 VelemProofs4.
Import ListNotations.
Local Open Scope Z_scope.

Lemma sizes_ok vb sew lmul8 vl I : legal vb sew lmul8 vl I -> sizes (vi_op I) sew = Some (widths (vi_op I) sew).
Proof.
  unfold legal. destruct (widths (vi_op I) sew) as [[wd w2] w1] eqn:E.
  intros ((_ & Hs & _) & Hk & (Hwd & _) & (Hw2 & _) & _). rewrite <- E.
  destruct (vi_op I); cbn [widths sizes] in *; injection E as Ed E2 E1; subst wd w2 w1;
    destruct Hs as [<-|[<-|[<-|[<-|[]]]]]; try reflexivity;
    try (exfalso; clear - Hwd Hw2; cbn in Hwd, Hw2; lia);
    destruct Hk as ([<-|[<-|[<-|[]]]] & Hk); try reflexivity; exfalso; lia.
Qed.

Lemma widths_w1 o sew wd w2 w1 : widths o sew = (wd, w2, w1) -> w1 = sew.
Proof. destruct o; cbn [widths]; intros H; injection H as _ _ <-; reflexivity. Qed.

Lemma lmul_check_ok vb sew lmul8 vl I : legal vb sew lmul8 vl I -> lmul_check (vi_op I) && (32 <? lmul8) = false.
Proof.
  unfold legal. destruct (widths (vi_op I) sew) as [[wd w2] w1] eqn:E.
  intros ((_ & Hs & Hl & _) & _ & (_ & Hd & _) & (_ & H2 & _) & _).
  destruct (lmul_check (vi_op I)) eqn:Hc; [|reflexivity]. cbn [andb].
  assert (wd = 2 * sew \/ w2 = 2 * sew) as HW.
  { destruct (vi_op I); cbn [lmul_check widths] in *; try discriminate; injection E as <- <- _; auto. }
  unfold emul8 in *.
  assert (lmul8 * (2 * sew) / sew = 2 * lmul8) as EM.
  { replace (lmul8 * (2 * sew)) with (2 * lmul8 * sew) by ring. apply Z.div_mul.
    destruct Hs as [<-|[<-|[<-|[<-|[]]]]]; lia. }
  destruct (Z.ltb_spec 32 lmul8); [|reflexivity]. destruct HW; subst; rewrite EM in *; lia.
Qed.

Lemma emul_checks vb sew lmul8 vl I wd w2 w1 : legal vb sew lmul8 vl I -> widths (vi_op I) sew = (wd, w2, w1) ->
  let ws := match shape_of (vi_op I) with Unary => [wd; w2] | _ => [wd; w2; w1] end in
  let lmul_of w := Z.quot (lmul8 * w) sew in
  existsb (fun w => 64 <? lmul_of w) ws || existsb (fun w => lmul_of w =? 0) ws = false.
Proof.
  intros HL E. cbv zeta. pose proof (legal_operands _ _ _ _ _ _ _ _ HL E) as (HC & (_ & Hd & _) & (_ & H2 & _) & _).
  pose proof (widths_w1 _ _ _ _ _ E) as ->.
  destruct HC as (_ & Hs & Hl & _).
  assert (1 <= sew) by (destruct Hs as [<-|[<-|[<-|[<-|[]]]]]; lia).
  assert (1 <= lmul8 <= 64) by (destruct Hl as [<-|[<-|[<-|[<-|[<-|[<-|[<-|[]]]]]]]]; lia).
  assert (forall w, 1 <= emul8 sew lmul8 w <= 64 -> (64 <? Z.quot (lmul8 * w) sew) = false /\ (Z.quot (lmul8 * w) sew =? 0) = false) as HE.
  { intros w Hw. unfold emul8 in Hw.
    assert (0 <= lmul8 * w). { destruct (Z.leb_spec 0 (lmul8 * w)); [assumption|]. pose proof (Z.div_lt_upper_bound (lmul8 * w) sew 0); lia. }
    rewrite Z.quot_div_nonneg by lia. split; [apply Z.ltb_ge|apply Z.eqb_neq]; lia. }
  assert (emul8 sew lmul8 sew = lmul8) as ES by (unfold emul8; apply Z.div_mul; lia).
  destruct (HE wd Hd) as (A1 & A2). destruct (HE w2 H2) as (B1 & B2). destruct (HE sew ltac:(lia)) as (C1 & C2).
  destruct (shape_of (vi_op I)); cbn [existsb]; rewrite A1, A2, B1, B2, ?C1, ?C2; reflexivity.
Qed.

(** The signed remainder that C++ leaves undefined. *)
Definition rem_overflow (sew : Z) (I : vinst) (x y : Z) : Prop :=
  vi_op I = Vrem /\ 4 <= sew /\ sgn (8 * sew) x = - 2 ^ (8 * sew - 1) /\ sgn (8 * sew) y = -1.

Lemma iter'_ok vb sew lmul8 vl I wd w2 w1 rm m rf j : legal vb sew lmul8 vl I -> widths (vi_op I) sew = (wd, w2, w1) ->
  byte_mem rf -> 0 <= rm < 4 ->
  let x := elem vb rf (vi_vs2 I) w2 j in let y := src1_elem vb rf w1 (vi_src1 I) j in
  let z := elem vb rf (vi_vd I) wd j in
  ((uses_carry (vi_op I) || m) = true -> ~ rem_overflow sew I x y) ->
  exists r s, iter' (vi_op I) (8 * sew) rm wd m x (src1_of vb I w1 rf j) (vd_of vb I wd rf j) =
    Some ((if uses_carry (vi_op I) || m then Some (wrap (8 * wd) r) else None), s) /\
    ((uses_carry (vi_op I) || m) = true -> vrel (vi_op I) (8 * sew) rm m x y z (wrap (8 * wd) r) s) /\
    ((uses_carry (vi_op I) || m) = false -> s = false).
Proof.
  intros HL E Hb Hrm x y z Hrem. unfold iter'.
  destruct (uses_carry (vi_op I) || m) eqn:Hm.
  2: { exists 0, false. split; [reflexivity|]. split; [discriminate|reflexivity]. }
  pose proof (widths_w1 _ _ _ _ _ E) as Ew1.
  pose proof (legal_operands _ _ _ _ _ _ _ _ HL E) as (HC & (Hwd & _) & (Hw2 & _) & _).
  destruct HC as (_ & Hs & _).
  assert (8 * sew / 8 = sew) as E8 by (rewrite Z.mul_comm; apply Z.div_mul; lia).
  assert (w2_of (vi_op I) (8 * sew) = 8 * w2) as EW2 by (unfold w2_of; rewrite E8, E; reflexivity).
  assert (wd_of (vi_op I) (8 * sew) = 8 * wd) as EWD by (unfold wd_of; rewrite E8, E; reflexivity).
  assert (wb (8 * sew)) as HW. { destruct Hs as [<-|[<-|[<-|[<-|[]]]]]; red; lia. }
  assert (0 <= w2 /\ 0 <= wd /\ 1 <= sew) as (? & ? & ?).
  { clear - Hwd Hw2 Hs. destruct Hs as [<-|[<-|[<-|[<-|[]]]]]; destruct Hwd as [<-|[<-|[<-|[<-|[]]]]]; destruct Hw2 as [<-|[<-|[<-|[<-|[]]]]]; lia. }
  assert (sew_fits (vi_op I) (8 * sew)) as HF.
  { red in HL. rewrite E in HL. destruct HL as (_ & Hk & _). destruct (vi_op I); cbn [sew_fits]; try exact Logic.I;
      split; try apply Hk; destruct Hk as (Hk & Hk2); lia. }
  assert (inw (8 * sew) y) as Hy.
  { subst y w1. destruct (vi_src1 I); cbn [src1_elem]; [apply elem_inw; [exact Hb|lia]|]. unfold inw; apply wrap_range; lia. }
  assert (inw (8 * sew) (src1_of vb I w1 rf j)) as Hy'.
  { unfold src1_of. destruct (has_src1 (vi_op I)); [exact Hy|]. unfold inw. pose proof (pow2_pos (8 * sew)). lia. }
  assert (inw (w2_of (vi_op I) (8 * sew)) x) as Hx by (rewrite EW2; apply elem_inw; [exact Hb|lia]).
  assert (rem_ok (vi_op I) (8 * sew) x (src1_of vb I w1 rf j)) as HR.
  { intros Ho Hsz Hxy. apply (Hrem eq_refl). unfold src1_of in Hxy. rewrite Ho in Hxy. cbn [has_src1] in Hxy.
    split; [exact Ho|]. split; [lia|exact Hxy]. }
  destruct (elem_correct (vi_op I) (8 * sew) rm m x (src1_of vb I w1 rf j) (vd_of vb I wd rf j) HW HF Hrm Hx Hy' HR) as (r & s & Er & Hv).
  rewrite Er. cbn [obind fst snd]. exists r, s. split; [reflexivity|]. split; [|discriminate]. intros _.
  rewrite EWD in Hv.
  assert (has_src1 (vi_op I) = true \/ has_src1 (vi_op I) = false /\ reads_vd (vi_op I) = false) as HH.
  { destruct (vi_op I); auto. }
  unfold src1_of, vd_of in Hv. destruct HH as [HH|(HH & _)].
  - rewrite HH in Hv. destruct (reads_vd (vi_op I)) eqn:HV; [exact Hv|]. eapply vrel_vd; [exact HV|exact Hv].
  - eapply vrel_src1; [exact HH|exact Hv].
Qed.

Theorem exec_elementwise st I :
  legal (vlenb (cfg st)) (sew (cfg st)) (lmul8 (cfg st)) (vl (cfg st)) I ->
  byte_mem (regs st) -> vexc (cfg st) = false -> 0 <= vstart (cfg st) -> 0 <= vxrm (cfg st) < 4 ->
  (forall j, active (vlenb (cfg st)) (vstart (cfg st)) (vl (cfg st)) (regs st) I j ->
     ~ rem_overflow (sew (cfg st)) I (elem (vlenb (cfg st)) (regs st) (vi_vs2 I) (sew (cfg st)) j)
         (src1_elem (vlenb (cfg st)) (regs st) (sew (cfg st)) (vi_src1 I) j)) ->
  exists st', exec st I = Some st' /\
    elementwise (vlenb (cfg st)) (sew (cfg st)) (vxrm (cfg st)) (vstart (cfg st)) (vl (cfg st)) I
      (regs st) (regs st') (vxsat (cfg st)) (vxsat (cfg st')) /\
    cfg st' = set_vstart (set_vxsat (cfg st) (vxsat (cfg st'))) 0.
Proof.
  intros HL Hb Hx Hst Hrm Hrem.
  set (c := cfg st) in *. set (rf0 := regs st) in *.
  destruct (widths (vi_op I) (sew c)) as [[wd w2] w1] eqn:E.
  pose proof (legal_operands _ _ _ _ _ _ _ _ HL E) as HO. pose proof HO as (HC & HD & _).
  destruct (config_vb _ _ _ _ HC) as (m & Hm & Hvb).
  pose proof (epv_spec m wd (proj1 HD) Hm) as (He & He1). rewrite <- Hvb in He, He1.
  pose proof (group_holds _ _ _ _ _ _ HC HD) as (Hh & Hg1). pose proof (num_regs_ge _ _ _ _ _ _ HC HD) as Hnr.
  assert (1 <= wd) as Hwd1. { destruct HD as (Hw & _). clear -Hw. destruct Hw as [<-|[<-|[<-|[<-|[]]]]]; lia. }
  assert (0 <= vl c) as Hvl0. { destruct HC as (_ & _ & _ & HV). lia. }
  unfold exec. fold c rf0. rewrite (lmul_check_ok _ _ _ _ _ HL). rewrite (sizes_ok _ _ _ _ _ HL). rewrite E.
  rewrite Hx. pose proof (emul_checks _ _ _ _ _ _ _ _ HL E) as EC. cbv zeta in EC |- *. rewrite EC. clear EC.
  set (epv := vlenb c / wd) in *. set (n := vl c) in *. set (mr := (n + epv - 1) / epv).
  assert (n <= nregs (sew c) (lmul8 c) wd * epv) as Hng by nia.
  assert (mr <= nregs (sew c) (lmul8 c) wd) as Hmr. { unfold mr. apply Z.lt_succ_r. apply Z.div_lt_upper_bound; nia. }
  destruct (Z.ltb_spec (num_regs (vi_vd I)) mr); [lia|].
  assert (n <= mr * epv) as Hn1.
  { unfold mr. pose proof (Z.div_mod (n + epv - 1) epv ltac:(lia)). pose proof (Z.mod_pos_bound (n + epv - 1) epv ltac:(lia)). nia. }
  assert ((mr - 1) * epv < n \/ n <= 0) as Hn2.
  { destruct (Z.leb_spec n 0); [right; lia|left]. unfold mr. pose proof (Z.mul_div_le (n + epv - 1) epv ltac:(lia)). nia. }
  set (body := fun rf vi => iter (vi_op I) (8 * sew c) (vxrm c) (vlenb c) wd w2 w1 (vi_vd I) (vi_vs2 I) (vi_src1 I)
                        (mask_value rf0 (vi_vm I) vi) rf vi).
  assert (forall rf j, 0 <= j < n -> body rf j = iter' (vi_op I) (8 * sew c) (vxrm c) wd (mbit (vlenb c) rf0 I j)
     (elem (vlenb c) rf (vi_vs2 I) w2 j) (src1_of (vlenb c) I w1 rf j) (vd_of (vlenb c) I wd rf j)) as HB.
  { intros rf j Hj. unfold body. rewrite (mask_ok (vlenb c)) by lia. apply (iter_ok _ (sew c) (lmul8 c) n); assumption. }
  assert (Ew1 := widths_w1 _ _ _ _ _ E).
  assert (forall j, vstart c <= j < n -> exists r s, body rf0 j =
     Some ((if uses_carry (vi_op I) || mbit (vlenb c) rf0 I j then Some (wrap (8 * wd) r) else None), s) /\
     ((uses_carry (vi_op I) || mbit (vlenb c) rf0 I j) = true ->
       vrel (vi_op I) (8 * sew c) (vxrm c) (mbit (vlenb c) rf0 I j) (elem (vlenb c) rf0 (vi_vs2 I) w2 j)
         (src1_elem (vlenb c) rf0 w1 (vi_src1 I) j) (elem (vlenb c) rf0 (vi_vd I) wd j) (wrap (8 * wd) r) s) /\
     ((uses_carry (vi_op I) || mbit (vlenb c) rf0 I j) = false -> s = false)) as HB0.
  { intros j Hj. rewrite HB by lia. apply (iter'_ok _ (sew c) (lmul8 c) n); try assumption.
    intros Ha Hro. apply (Hrem j); [split; assumption|].
    assert (w2 = sew c) as E2. { destruct Hro as (Ho & _). rewrite Ho in E. cbn [widths] in E. congruence. }
    rewrite <- E2 at 2. rewrite <- Ew1 at 2. exact Hro. }
  assert (forall j, vstart c <= j < n -> body rf0 j <> None) as Hdef.
  { intros j Hj. destruct (HB0 j Hj) as (r & s & Er & _). rewrite Er. discriminate. }
  assert (forall rf j, vstart c <= j < n ->
    (forall a, ~ (vi_vd I * vlenb c <= a < (vi_vd I + j / epv) * vlenb c) -> rf a = rf0 a) -> body rf j = body rf0 j) as Hhaz.
  { intros rf j Hj Hag. rewrite !HB by lia.
    destruct (operands_ext _ _ _ _ _ _ _ _ rf rf0 j HO ltac:(lia) Hag) as (-> & -> & ->). reflexivity. }
  destruct (loop_spec body (vlenb c) wd (vi_vd I) epv n rf0 (vstart c) Hwd1 He1 He Hst Hdef Hhaz (vxsat c) mr Hn1 Hn2)
    as (rf' & sat' & -> & Hrf' & Hsat').
  cbn [obind fst snd]. eexists. split; [reflexivity|].
  cbn [regs cfg]. split; [|reflexivity].
  change (vxsat (set_vstart (set_vxsat c sat') 0)) with sat'.
  unfold elementwise. rewrite E.
  exists (S body rf0).
  split; [|split].
  - intros j (Hj & Ha). destruct (HB0 j Hj) as (r & s & Er & Hv & _). rewrite Ha in Er.
    assert (S body rf0 j = s) as -> by (unfold S; rewrite Er; reflexivity).
    replace (elem (vlenb c) rf' (vi_vd I) wd j) with (wrap (8 * wd) r); [exact (Hv Ha)|].
    symmetry. unfold elem.
    rewrite (load_le_ext rf' (store_le rf0 (vi_vd I * vlenb c + j * wd) (Z.to_nat wd) (wrap (8 * wd) r))).
    + rewrite load_store_same. rewrite Z2Nat.id by lia. apply wrap_wrap; lia.
    + rewrite Z2Nat.id by lia. intros a Ha'. rewrite Hrf'. rewrite store_le_same by (rewrite Z2Nat.id; lia).
      unfold upto. cbv zeta. rewrite (idx_spec (vlenb c) wd (vi_vd I) a j) by lia.
      destruct (Z.leb_spec (vstart c) j), (Z.ltb_spec j (Z.max (vstart c) n)); try lia. cbn [andb].
      unfold F. rewrite Er. reflexivity.
  - intros a Hna. rewrite Hrf'. unfold upto. cbv zeta.
    destruct (Z.leb_spec (vstart c) (idx (vlenb c) wd (vi_vd I) a)), (Z.ltb_spec (idx (vlenb c) wd (vi_vd I) a) (Z.max (vstart c) n)); cbn [andb]; try reflexivity.
    set (j := idx (vlenb c) wd (vi_vd I) a) in *.
    destruct (HB0 j ltac:(lia)) as (r & s & Er & _).
    unfold F. rewrite Er. destruct (uses_carry (vi_op I) || mbit (vlenb c) rf0 I j) eqn:Ha; [|reflexivity].
    exfalso. apply (Hna j); [split; [lia|exact Ha]|]. apply (idx_bounds (vlenb c) wd (vi_vd I) a Hwd1).
  - unfold sat_upto in Hsat'. rewrite Hsat'. split.
    + intros [H1|(j & Hj & HS)]; [left; exact H1|right]. exists j. split; [|exact HS].
      destruct (HB0 j ltac:(lia)) as (r & s & Er & _ & Hf). split; [lia|].
      destruct (uses_carry (vi_op I) || mbit (vlenb c) rf0 I j); [reflexivity|].
      unfold S in HS. rewrite Er, (Hf eq_refl) in HS. discriminate.
    + intros [H1|(j & (Hj & _) & HS)]; [left; exact H1|right]. exists j. split; [lia|exact HS].
Qed.
