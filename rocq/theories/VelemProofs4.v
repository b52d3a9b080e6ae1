(** Legal instructions: no hazards, every check passes, and the loops compute the specification. *)
From Coq Require Import ZArith Bool List Lia.
From Verif Require Import Bits Memory VelemSpec VcfgModel VelemModel VelemProofs1 VelemProofs2 VelemProofs3.
Import ListNotations.
Local Open Scope Z_scope.

Lemma config_vb vb sew lmul8 vl : config vb sew lmul8 vl -> exists m, 1 <= m /\ vb = 8 * m.
Proof.
  intros ((k & Hk & ->) & _). exists (2 ^ (k - 3)). split.
  - pose proof (pow2_pos (k - 3) ltac:(lia)). lia.
  - change 8 with (2 ^ 3). rewrite <- Z.pow_add_r by lia. f_equal. lia.
Qed.

(** Splitting of registers into elements. *)
Lemma epv_spec m w : In w [1; 2; 4; 8] -> 1 <= m -> 8 * m = (8 * m / w) * w /\ 1 <= 8 * m / w.
Proof.
  intros Hw Hm.
  assert (exists q, 8 = w * q /\ 1 <= q /\ 1 <= w) as (q & Hq & Hq1 & Hw1).
  { destruct Hw as [<-|[<-|[<-|[<-|[]]]]]; [exists 8|exists 4|exists 2|exists 1]; lia. }
  assert (8 * m / w = q * m) as ->. { rewrite Hq. replace (w * q * m) with (q * m * w) by ring. apply Z.div_mul. lia. }
  split; [rewrite Hq; ring|nia].
Qed.

(** A register group holds every body element. *)
Lemma group_holds vb sew lmul8 vl w r : config vb sew lmul8 vl -> group sew lmul8 w r ->
  vl * w <= nregs sew lmul8 w * vb /\ 1 <= nregs sew lmul8 w.
Proof.
  intros HC HG. destruct (config_vb _ _ _ _ HC) as (m & Hm & Hvb).
  destruct HC as (_ & Hs & Hl & Hvl). destruct HG as (Hw & He & _).
  subst vb. split; [|unfold nregs; lia].
  assert (vl * (8 * sew) <= 8 * m * lmul8) as Hv.
  { assert (0 < 8 * sew) as Hp by (destruct Hs as [<-|[<-|[<-|[<-|[]]]]]; lia).
    pose proof (Z.mul_div_le (8 * m * lmul8) (8 * sew) Hp). nia. }
  assert (lmul8 * w <= 8 * sew * nregs sew lmul8 w /\ 1 <= sew /\ 0 <= w) as (HK & Hs1 & Hw0).
  { clear - Hs Hl Hw He. unfold nregs, emul8 in *.
    destruct Hs as [<-|[<-|[<-|[<-|[]]]]]; destruct Hl as [<-|[<-|[<-|[<-|[<-|[<-|[<-|[]]]]]]]];
    destruct Hw as [<-|[<-|[<-|[<-|[]]]]]; cbn in He |- *; lia. }
  set (g := nregs sew lmul8 w) in *.
  apply (Z.mul_le_mono_pos_r _ _ (8 * sew)); [lia|].
  assert (vl * (8 * sew) * w <= 8 * m * lmul8 * w) by nia. nia.
Qed.

Definition nr_ok (g r : Z) : bool := negb ((r mod g =? 0) && (r + g <=? 32)) || (g <=? num_regs r).
Lemma nregs_cases vb sew lmul8 vl w r : config vb sew lmul8 vl -> group sew lmul8 w r -> In (nregs sew lmul8 w) [1; 2; 4; 8].
Proof.
  intros (_ & Hs & Hl & _) (Hw & He & _). unfold nregs, emul8 in *.
  destruct Hs as [<-|[<-|[<-|[<-|[]]]]]; destruct Hl as [<-|[<-|[<-|[<-|[<-|[<-|[<-|[]]]]]]]];
    destruct Hw as [<-|[<-|[<-|[<-|[]]]]]; cbn in He |- *; try (exfalso; lia); auto.
Qed.
Lemma num_regs_ge vb sew lmul8 vl w r : config vb sew lmul8 vl -> group sew lmul8 w r -> nregs sew lmul8 w <= num_regs r.
Proof.
  intros HC HG. pose proof (nregs_cases _ _ _ _ _ _ HC HG) as Hg. destruct HG as (Hw & He & Hr & Hr32 & Hmod).
  set (g := nregs sew lmul8 w) in *.
  assert (forallb (fun g => forallb (nr_ok g) (zrange 32)) [1;2;4;8] = true) as T by reflexivity.
  rewrite forallb_forall in T. specialize (T g Hg). rewrite forallb_forall in T.
  assert (1 <= g) by (subst g; unfold nregs; lia).
  assert (In r (zrange 32)) as Hz by (apply zrange_in; lia). specialize (T r Hz).
  unfold nr_ok in T. destruct (Z.eqb_spec (r mod g) 0), (Z.leb_spec (r + g) 32), (Z.leb_spec g (num_regs r)); cbn in T; lia.
Qed.

Lemma read_elem_ok vb sew lmul8 vl w r rf j : config vb sew lmul8 vl -> group sew lmul8 w r -> 0 <= j < vl ->
  read_elem vb rf r w j = Some (elem vb rf r w j).
Proof.
  intros HC HG Hj. pose proof (num_regs_ge _ _ _ _ _ _ HC HG) as Hn. pose proof (group_holds _ _ _ _ _ _ HC HG) as (Hh & _).
  destruct (config_vb _ _ _ _ HC) as (m & Hm & ->). destruct HG as (Hw & _).
  pose proof (epv_spec m w Hw Hm) as (He & He1).
  assert (1 <= w) by (destruct Hw as [<-|[<-|[<-|[<-|[]]]]]; lia).
  unfold read_elem, elem. cbv zeta. set (e := 8 * m / w) in *.
  assert (j / e < nregs sew lmul8 w). { apply Z.div_lt_upper_bound; [lia|]. nia. }
  destruct (Z.ltb_spec (j / e) (num_regs r)); [|lia]. do 2 f_equal.
  pose proof (Z.div_mod j e ltac:(lia)). rewrite He. nia.
Qed.

Lemma no_hazard vb sew lmul8 vl wd vd ws rs j a : config vb sew lmul8 vl -> group sew lmul8 wd vd -> group sew lmul8 ws rs ->
  overlap_ok sew lmul8 wd vd ws rs -> 0 <= j < vl -> in_elem vb rs ws j a ->
  ~ (vd * vb <= a < (vd + j / (vb / wd)) * vb).
Proof.
  intros HC HD HS HO Hj Ha.
  pose proof (group_holds _ _ _ _ _ _ HC HD) as (Hhd & _). pose proof (group_holds _ _ _ _ _ _ HC HS) as (Hhs & _).
  pose proof HC as HC'. destruct (config_vb _ _ _ _ HC) as (m & Hm & Hvb).
  pose proof HD as (Hwd & Hed & _). pose proof HS as (Hws & Hes & _).
  pose proof (epv_spec m wd Hwd Hm) as (He & He1). rewrite <- Hvb in He, He1.
  assert (1 <= wd) by (clear -Hwd; destruct Hwd as [<-|[<-|[<-|[<-|[]]]]]; lia).
  assert (1 <= ws) by (clear -Hws; destruct Hws as [<-|[<-|[<-|[<-|[]]]]]; lia).
  set (e := vb / wd) in *.
  pose proof (Z.mul_div_le j e ltac:(lia)) as Hd.
  assert (0 <= j / e) by (apply Z.div_pos; lia).
  assert (j / e * vb <= j * wd) as Hjv by (rewrite He; nia).
  unfold in_elem in Ha. destruct HO as [HO|[HO|[(HO1 & HO2)|(HO1 & HO2 & HO3)]]].
  - nia.
  - assert (j / e < nregs sew lmul8 wd). { apply Z.div_lt_upper_bound; [lia|]. nia. }
    nia.
  - subst rs. nia.
  - assert ((nregs sew lmul8 wd - nregs sew lmul8 ws) * ws = nregs sew lmul8 ws * (wd - ws)) as HK.
    { destruct HC' as (_ & Hs & Hl & _). clear -Hs Hl Hwd Hws Hed Hes HO1 HO2. unfold nregs, emul8 in *.
      destruct Hs as [<-|[<-|[<-|[<-|[]]]]]; destruct Hl as [<-|[<-|[<-|[<-|[<-|[<-|[<-|[]]]]]]]];
      destruct Hws as [<-|[<-|[<-|[<-|[]]]]]; destruct Hwd as [<-|[<-|[<-|[<-|[]]]]];
      cbn in Hed, Hes, HO1, HO2 |- *; try (exfalso; lia); reflexivity. }
    set (gd := nregs sew lmul8 wd) in *. set (gs := nregs sew lmul8 ws) in *.
    assert (vd = rs + gs - gd) as -> by lia.
    (* j * (wd - ws) * ws <= gs * vb * (wd - ws) = (gd - gs) * ws * vb *)
    assert (j * (wd - ws) <= (gd - gs) * vb).
    { apply (Z.mul_le_mono_pos_r _ _ ws); [lia|].
      replace ((gd - gs) * vb * ws) with (((gd - gs) * ws) * vb) by ring. rewrite HK.
      assert (j * ws <= gs * vb) by nia. nia. }
    nia.
Qed.

Lemma elem_ext vb rf rf' r w j : 0 <= w -> (forall a, in_elem vb r w j a -> rf a = rf' a) -> elem vb rf r w j = elem vb rf' r w j.
Proof. intros Hw H. apply load_le_ext. intros a Ha. apply H. unfold in_elem. rewrite Z2Nat.id in Ha by lia. lia. Qed.
Lemma elem_inw vb rf r w j : byte_mem rf -> 0 <= w -> inw (8 * w) (elem vb rf r w j).
Proof. intros Hb Hw. pose proof (load_le_range rf (r * vb + j * w) (Z.to_nat w) Hb) as H. rewrite Z2Nat.id in H by lia. exact H. Qed.

Lemma mask_ok vb rf I j : 0 <= j -> mask_value rf (vi_vm I) j = mbit vb rf I j.
Proof.
  intros Hj. unfold mask_value, mbit, vbit. destruct (vi_vm I); [reflexivity|]. cbn [orb].
  rewrite Z.mul_0_l, Z.add_0_l. rewrite (Z.shiftr_div_pow2 j 3) by lia. change (2 ^ 3) with 8.
  change 7 with (Z.ones 3). rewrite Z.land_ones by lia. change (2 ^ 3) with 8.
  change 1 with (Z.ones 1). rewrite Z.land_ones by lia. change (2 ^ 1) with 2.
  rewrite <- Z.bit0_mod. rewrite Z.shiftr_spec by lia. rewrite Z.add_0_l.
  destruct (Z.testbit _ _); reflexivity.
Qed.

Lemma vrel_src1 o b rm m x y y' z z' r s : has_src1 o = false -> vrel o b rm m x y z r s -> vrel o b rm m x y' z' r s.
Proof. destruct o; cbn [has_src1]; intros H; try discriminate; exact (fun h => h). Qed.
Lemma vrel_vd o b rm m x y z z' r s : reads_vd o = false -> vrel o b rm m x y z r s -> vrel o b rm m x y z' r s.
Proof. destruct o; cbn [reads_vd]; intros H; try discriminate; exact (fun h => h). Qed.

(** The operand part of legality, with the widths as variables. *)
Definition operands_ok (vb sew lmul8 vl : Z) (I : vinst) (wd w2 w1 : Z) : Prop :=
  config vb sew lmul8 vl /\ group sew lmul8 wd (vi_vd I) /\ group sew lmul8 w2 (vi_vs2 I) /\
  overlap_ok sew lmul8 wd (vi_vd I) w2 (vi_vs2 I) /\
  (has_src1 (vi_op I) = true -> match vi_src1 I with
     | Vec r => group sew lmul8 w1 r /\ overlap_ok sew lmul8 wd (vi_vd I) w1 r
     | Scalar _ => True end).

Lemma legal_operands vb sew lmul8 vl I wd w2 w1 : legal vb sew lmul8 vl I -> widths (vi_op I) sew = (wd, w2, w1) ->
  operands_ok vb sew lmul8 vl I wd w2 w1.
Proof.
  unfold legal. intros H E. rewrite E in H. destruct H as (HC & _ & HD & H2 & HO & H1 & _).
  split; [exact HC|]. split; [exact HD|]. split; [exact H2|]. split; [exact HO|].
  intros Hs. rewrite Hs in H1. exact H1.
Qed.

(** The part of an iteration after the operands are read. *)
Definition iter' (o : vop) (b rm wd : Z) (m : bool) (x y z : Z) : option (option Z * bool) :=
  if uses_carry o || m then
    obind (elem_op o b rm m x y z) (fun rs => Some (Some (wrap (8 * wd) (fst rs)), snd rs))
  else Some (None, false).
Definition src1_of (vb : Z) (I : vinst) (w1 : Z) rf j := if has_src1 (vi_op I) then src1_elem vb rf w1 (vi_src1 I) j else 0.
Definition vd_of (vb : Z) (I : vinst) (wd : Z) rf j := if reads_vd (vi_op I) then elem vb rf (vi_vd I) wd j else 0.

Lemma read_src1_ok vb sew lmul8 vl w1 rf j s : config vb sew lmul8 vl ->
  match s with Vec r => group sew lmul8 w1 r | Scalar _ => True end -> 0 <= j < vl ->
  read_src1 vb rf w1 s j = Some (src1_elem vb rf w1 s j).
Proof.
  intros HC HG Hj. destruct s as [r|x]; cbn [read_src1 src1_elem]; [|reflexivity].
  apply (read_elem_ok vb sew lmul8 vl); assumption.
Qed.

Lemma iter_ok vb sew lmul8 vl I wd w2 w1 b rm m rf j : operands_ok vb sew lmul8 vl I wd w2 w1 -> 0 <= j < vl ->
  iter (vi_op I) b rm vb wd w2 w1 (vi_vd I) (vi_vs2 I) (vi_src1 I) m rf j =
  iter' (vi_op I) b rm wd m (elem vb rf (vi_vs2 I) w2 j) (src1_of vb I w1 rf j) (vd_of vb I wd rf j).
Proof.
  intros (HC & HD & H2 & HO & H1) Hj.
  assert (read_elem vb rf (vi_vs2 I) w2 j = Some (elem vb rf (vi_vs2 I) w2 j)) as R2
    by (apply (read_elem_ok vb sew lmul8 vl); assumption).
  assert (read_elem vb rf (vi_vd I) wd j = Some (elem vb rf (vi_vd I) wd j)) as RD
    by (apply (read_elem_ok vb sew lmul8 vl); assumption).
  assert (has_src1 (vi_op I) = true -> read_src1 vb rf w1 (vi_src1 I) j = Some (src1_elem vb rf w1 (vi_src1 I) j)) as R1.
  { intros Hs. apply (read_src1_ok vb sew lmul8 vl); [exact HC| |exact Hj]. specialize (H1 Hs). destruct (vi_src1 I); [apply H1|exact Logic.I]. }
  clear - R1 R2 RD.
  unfold iter, iter', src1_of, vd_of. cbv zeta. rewrite R2, RD.
  destruct (vi_op I); cbn [has_src1 shape_of uses_carry reads_vd orb] in *; try rewrite (R1 eq_refl); cbn [obind]; destruct m; reflexivity.
Qed.

Lemma operands_ext vb sew lmul8 vl I wd w2 w1 rf rf0 j : operands_ok vb sew lmul8 vl I wd w2 w1 -> 0 <= j < vl ->
  (forall a, ~ (vi_vd I * vb <= a < (vi_vd I + j / (vb / wd)) * vb) -> rf a = rf0 a) ->
  elem vb rf (vi_vs2 I) w2 j = elem vb rf0 (vi_vs2 I) w2 j /\ src1_of vb I w1 rf j = src1_of vb I w1 rf0 j /\
  vd_of vb I wd rf j = vd_of vb I wd rf0 j.
Proof.
  intros (HC & HD & H2 & HO & H1) Hj Hrf.
  assert (forall w r, group sew lmul8 w r -> 0 <= w) as Hw.
  { clear. intros w r (Hw & _). destruct Hw as [<-|[<-|[<-|[<-|[]]]]]; lia. }
  assert (forall w r, group sew lmul8 w r -> overlap_ok sew lmul8 wd (vi_vd I) w r ->
     elem vb rf r w j = elem vb rf0 r w j) as HE.
  { intros w r HG HO'. apply elem_ext; [eapply Hw; exact HG|]. intros a Ha. apply Hrf.
    apply (no_hazard vb sew lmul8 vl wd (vi_vd I) w r j a); assumption. }
  split; [apply HE; assumption|]. split.
  - unfold src1_of. destruct (has_src1 (vi_op I)); [|reflexivity]. specialize (H1 eq_refl).
    destruct (vi_src1 I); [|reflexivity]. cbn [src1_elem]. apply HE; apply H1.
  - unfold vd_of. destruct (reads_vd (vi_op I)); [|reflexivity]. apply HE; [exact HD|].
    right; right; left. split; [lia|reflexivity].
Qed.
