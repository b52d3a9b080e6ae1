(** Vector floating-point compares, reductions, moves: proofs. *)
From Coq Require Import ZArith Bool List Lia.
From Verif Require Import Bits Memory IeeeSpec FpSpec FarithSpec IntModel FpModel FarithModel FpProofs FarithProofs FarithExec VelemSpec VcfgModel VelemModel VelemProofs4
  VmaskSpec VmaskModel VmaskProofs1 VmaskProofs2 VmaskProofs3 VmaskProofs4 FvSpec FvModel FvElem FrSpec FrModel.
Import ListNotations.
Local Open Scope Z_scope.

(** ** Compares *)
Lemma fcmp_ok : forall o f x y, fcmp_op o f x y = fcmp_res o f x y.
Proof.
  intros o f x y. unfold fcmp_op, fcmp_res, either_nan, host_eq, host_lt, host_le.
  destruct o, (is_nan f x), (is_nan f y); cbn [negb andb orb]; reflexivity.
Qed.

(** ** Reductions *)
Fixpoint gfold (op : Z -> Z -> Z * Z) (acc : Z) (l : list Z) : Z * Z :=
  match l with [] => (acc, 0) | x :: l' => let r := gfold op (fst (op acc x)) l' in (fst r, Z.lor (snd (op acc x)) (snd r)) end.
Lemma fred_loop_spec m read op el k : forall i acc fl, (forall j, i <= j < i + Z.of_nat k -> read j = Some (el j)) ->
  fred_loop m read op k i (i + Z.of_nat k) acc fl =
  Some (let r := gfold op acc (map el (filter m (zrange_from i k))) in (fst r, Z.lor fl (snd r))).
Proof.
  induction k as [|k IH]; intros i acc fl Hr; cbn [fred_loop zrange_from filter map gfold]; [cbn [fst snd]; rewrite Z.lor_0_r; reflexivity|].
  destruct (Z.ltb_spec i (i + Z.of_nat (S k))); [|lia].
  replace (i + Z.of_nat (S k)) with (i + 1 + Z.of_nat k) by lia.
  destruct (m i).
  - rewrite Hr by lia. cbn [obind map gfold]. cbv zeta. cbn [fst snd]. rewrite IH by (intros j Hj; apply Hr; lia). cbv zeta. rewrite Z.lor_assoc. reflexivity.
  - apply IH. intros j Hj. apply Hr. lia.
Qed.
Lemma fred_fold_g : forall o b mode l s, fred_fold o b mode s l = gfold (fred_step o b mode) s l.
Proof.
  induction l as [|x l IH]; intros s; cbn [fred_fold gfold]; [reflexivity|]. destruct (fred_step o b mode s x) as [a fl]. cbn [fst snd]. rewrite IH.
  cbv zeta. destruct (gfold _ a l) as [r fl']. reflexivity.
Qed.

Lemma canonical_not_snan : forall f x, f = single \/ f = double -> canonical f x -> is_snan f x = false.
Proof. intros f x Hf [[_ N] | ->]; [unfold is_snan; rewrite N; reflexivity |]. destruct Hf as [-> | ->]; reflexivity. Qed.

Lemma add_step : forall H f rm a a' x x', host_ok H -> host_quiet_sum H -> f = single \/ f = double -> 0 <= rm <= 3 ->
  0 <= a < 2 ^ width f -> 0 <= a' < 2 ^ width f -> 0 <= x < 2 ^ width f -> 0 <= x' < 2 ^ width f -> sim f a a' -> sim f x x' ->
  snd (h_add H f rm a x) = snd (ieee_add f rm a' x') /\ sim f (fst (h_add H f rm a x)) (fst (ieee_add f rm a' x')) /\
  0 <= fst (h_add H f rm a x) < 2 ^ width f /\ 0 <= fst (ieee_add f rm a' x') < 2 ^ width f.
Proof.
  intros H f rm a a' x x' HO HQ Hf Hrm Ha Ha' Hx Hx' SA SX. destruct (HO f rm a x 0 Hf Hrm Ha Hx ltac:(lia)) as ((L1 & L2 & L3) & _).
  rewrite (sim_add f rm a a' x x' SA SX) in L1, L3. pose proof (HQ f rm a x Hf Hrm Ha Hx) as Q.
  assert (C : canonical f (fst (ieee_add f rm a' x'))) by (apply add_canonical; try assumption; apply sd_ok2; exact Hf).
  pose proof (canonical_not_snan f _ Hf C) as Q'. split; [exact L1 |]. split; [| split; [exact L2 | apply canonical_range; [apply sd_formats; exact Hf | exact C]]].
  unfold sim. rewrite Q, Q'. destruct (is_nan f (fst (ieee_add f rm a' x'))) eqn:N.
  - rewrite L3. repeat split. discriminate.
  - rewrite L3, N. repeat split; intros; reflexivity.
Qed.

(** A fold of steps that preserve the correspondence of accumulators. *)
Lemma fold_like : forall f (op spec : Z -> Z -> Z * Z) (P : Z -> Prop), (forall a a' x, P x -> 0 <= a < 2 ^ width f -> 0 <= a' < 2 ^ width f -> sim f a a' ->
    snd (op a x) = snd (spec a' x) /\ sim f (fst (op a x)) (fst (spec a' x)) /\ 0 <= fst (op a x) < 2 ^ width f /\ 0 <= fst (spec a' x) < 2 ^ width f) ->
  forall l a a', (forall x, In x l -> P x) -> 0 <= a < 2 ^ width f -> 0 <= a' < 2 ^ width f -> sim f a a' -> like f (gfold op a l) (gfold spec a' l).
Proof.
  intros f op spec P K. induction l as [|x l IH]; intros a a' HP Ha Ha' S.
  - cbn [gfold]. unfold like. cbn [fst snd]. split; [reflexivity |]. split; [exact Ha |]. destruct S as (S1 & S2 & S3). destruct (is_nan f a') eqn:N; [exact S1 | apply S3; rewrite S1; reflexivity].
  - cbn [gfold]. cbv zeta. destruct (K a a' x (HP x (or_introl eq_refl)) Ha Ha' S) as (K1 & K2 & K3 & K4).
    destruct (IH _ _ (fun y Hy => HP y (or_intror Hy)) K3 K4 K2) as (I1 & I2 & I3). unfold like. cbn [fst snd]. rewrite K1, I1. split; [reflexivity |]. split; assumption.
Qed.

Lemma sum_fold : forall H b mode s l, host_ok H -> host_quiet_sum H -> 0 <= mode <= 3 -> 0 <= s < 2 ^ width (ffmt b) -> (forall x, In x l -> 0 <= x < 2 ^ width (ffmt b)) ->
  like (ffmt b) (gfold (h_add H (ctype b) mode) s l) (gfold (ieee_add (ffmt b) mode) s l).
Proof.
  intros H b mode s l HO HQ Hm Hs Hl. replace (ctype b) with (ffmt b) by (symmetry; apply ctype_ffmt). apply (fold_like (ffmt b) _ _ (fun x => 0 <= x < 2 ^ width (ffmt b))); try assumption; [| apply sim_refl].
  intros a a' x Hx Ha Ha' S. apply add_step; try assumption; [apply ffmt_cases | apply sim_refl].
Qed.
Lemma wide_fold : forall H mode s l, host_ok H -> host_quiet_double H -> host_quiet_sum H -> 0 <= mode <= 3 -> 0 <= s < 2 ^ 64 -> (forall x, In x l -> 0 <= x < 2 ^ 32) ->
  like double (gfold (fun acc x => then_ (to_double H mode x) (fun x => h_add H double mode acc x)) s l) (gfold (fun acc x => on_wide1 mode x (ieee_add double mode acc)) s l).
Proof.
  intros H mode s l HO HQ HQ2 Hm Hs Hl. apply (fold_like double _ _ (fun x => 0 <= x < 2 ^ 32)); try assumption; [| apply sim_refl].
  intros a a' x Hx Ha Ha' S. destruct (to_double_sim H mode x HO HQ Hm Hx) as (X1 & X2 & X3 & X4 & X5). unfold then_, on_wide1.
  destruct (ieee_cvt single double mode x) as [x' fx]. cbn [fst snd] in *. destruct (add_step H double mode a a' (fst (to_double H mode x)) x' HO HQ2 (or_intror eq_refl) Hm Ha Ha' X2 X4 S X3) as (A1 & A2 & A3 & A4).
  destruct (h_add H double mode a (fst (to_double H mode x))) as [r fl]. destruct (ieee_add double mode a' x') as [r' fl']. cbn [fst snd] in *. rewrite X1, A1. repeat split; try apply A2; try apply A3; try apply A4.
Qed.

Lemma same_number : forall f a b sg, In f formats -> f = single \/ f = double -> 0 <= a < 2 ^ width f -> 0 <= b < 2 ^ width f -> is_nan f a = false -> is_nan f b = false ->
  (is_zero f a = true -> sign f a = sg) -> (is_zero f b = true -> sign f b = sg) -> units f a = units f b -> a = b.
Proof.
  intros f a b sg Hin Hf Ha Hb NA NB ZA ZB U. pose proof (formats_ok f Hin) as Ok. destruct (Z.eq_dec (units f a) 0) as [E | E]; [| apply (units_inj f); assumption].
  pose proof (zero_patterns f a Ok Ha E) as PA. assert (E' : units f b = 0) by (rewrite <- U; exact E). pose proof (zero_patterns f b Ok Hb E') as PB.
  assert (Z0 : forall s, is_zero f (with_sign f s 0) = true) by (clear - Hf; intros s; destruct Hf as [-> | ->], s; reflexivity).
  rewrite PA in ZA at 1. rewrite PB in ZB at 1. rewrite PA, PB, (ZA (Z0 _)), (ZB (Z0 _)). reflexivity.
Qed.
Lemma minmax_step : forall f (mn : bool) a x sg, In f formats -> f = single \/ f = double -> 0 <= a < 2 ^ width f -> 0 <= x < 2 ^ width f ->
  is_snan f a = false -> is_snan f x = false -> (is_zero f a = true -> sign f a = sg) -> (is_zero f x = true -> sign f x = sg) ->
  RedMaxMinHelper f (if mn then fun acc x => if host_lt f x acc then x else acc else fun acc x => if host_lt f acc x then x else acc) a x = min_max f mn a x /\
  (min_max f mn a x = a \/ min_max f mn a x = x \/ min_max f mn a x = canonical_nan f).
Proof.
  intros f mn a x sg Hin Hf Ha Hx QA QX ZA ZX. pose proof (formats_ok f Hin) as Ok. split.
  - unfold RedMaxMinHelper. rewrite !IsNaN_eq, !IsSNaN_eq, canonical_eq, QA, QX by assumption. cbn [orb]. unfold min_max.
    destruct (is_nan f a) eqn:NA, (is_nan f x) eqn:NX; try reflexivity. cbn [andb].
    assert (EQ : units f a = units f x -> a = x) by (intros U; apply (same_number f a x sg); assumption).
    destruct mn; unfold host_lt, below; rewrite NA, NX; cbn [negb andb].
    + revert EQ. generalize (units f a) (units f x) (sign f a). clear. intros u v t EQ.
      destruct (Z.ltb_spec v u), (Z.ltb_spec u v), (Z.eqb_spec u v); cbn [orb andb Bool.eqb]; try reflexivity; try (exfalso; lia).
      destruct t; cbn [Bool.eqb]; [reflexivity | auto].
    + revert EQ. generalize (units f a) (units f x) (sign f a). clear. intros u v t EQ.
      destruct (Z.ltb_spec u v), (Z.eqb_spec u v); cbn [orb andb Bool.eqb]; try reflexivity; try (exfalso; lia).
      destruct t; cbn [Bool.eqb]; [auto | reflexivity].
  - unfold min_max. destruct (is_nan f a), (is_nan f x); auto. destruct (Bool.eqb mn (below f a x)); auto.
Qed.
Lemma minmax_fold : forall b (mn : bool) l s, 0 <= s < 2 ^ width (ffmt b) -> (forall x, In x l -> 0 <= x < 2 ^ width (ffmt b)) -> same_zeros (ffmt b) (s :: l) ->
  gfold (fun acc x => (RedMaxMinHelper (ctype b) (if mn then fun acc x => if host_lt (ctype b) x acc then x else acc else fun acc x => if host_lt (ctype b) acc x then x else acc) acc x, 0)) s l =
  gfold (fun acc x => (min_max (ffmt b) mn acc x, nv (either_snan (ffmt b) acc x))) s l /\
  0 <= fst (gfold (fun acc x => (min_max (ffmt b) mn acc x, nv (either_snan (ffmt b) acc x))) s l) < 2 ^ width (ffmt b).
Proof.
  intros b mn. replace (ctype b) with (ffmt b) by (symmetry; apply ctype_ffmt). pose proof (ffmt_cases b) as Hf. set (f := ffmt b) in *. clearbody f. assert (Hin : In f formats) by (apply sd_formats; exact Hf).
  assert (CN : is_snan f (canonical_nan f) = false /\ is_zero f (canonical_nan f) = false /\ 0 <= canonical_nan f < 2 ^ width f) by (clear - Hf; destruct Hf as [-> | ->]; vm_compute; repeat split; congruence).
  destruct CN as (CN1 & CN2 & CN3).
  induction l as [|x l IH]; intros s Hs Hl (Q & sg & Z0); cbn [gfold]; [split; [reflexivity | exact Hs] |]. cbv zeta. cbn [fst snd].
  assert (Hx : 0 <= x < 2 ^ width f) by (apply Hl; left; reflexivity). assert (Qs : is_snan f s = false) by (apply Q; left; reflexivity). assert (Qx : is_snan f x = false) by (apply Q; right; left; reflexivity).
  destruct (minmax_step f mn s x sg Hin Hf Hs Hx Qs Qx (Z0 s (or_introl eq_refl)) (Z0 x (or_intror (or_introl eq_refl)))) as (E & C). rewrite E.
  assert (NV0 : nv (either_snan f s x) = 0) by (unfold either_snan; rewrite Qs, Qx; reflexivity). rewrite NV0.
  destruct (IH (min_max f mn s x)) as (I1 & I2).
  - destruct C as [-> | [-> | ->]]; assumption.
  - intros y Hy. apply Hl. right. exact Hy.
  - assert (IN : forall v, In v (min_max f mn s x :: l) -> In v (s :: x :: l) \/ v = canonical_nan f).
    { intros v [<- | Hv]; [destruct C as [-> | [-> | ->]]; [left; left; reflexivity | left; right; left; reflexivity | right; reflexivity] | left; right; right; exact Hv]. }
    split; [intros v Hv; destruct (IN v Hv) as [I | ->]; [apply Q; exact I | exact CN1] |].
    exists sg. intros v Hv. destruct (IN v Hv) as [I | ->]; [apply Z0; exact I | rewrite CN2; discriminate].
  - rewrite I1. split; [reflexivity | exact I2].
Qed.

Lemma fred_all : forall H o b mode s l, host_ok H -> host_quiet_double H -> host_quiet_sum H -> 0 <= mode <= 3 -> (fwidening o = true -> b = 32) -> 0 <= s < 2 ^ width (fred_fmt o b) ->
  (forall x, In x l -> 0 <= x < 2 ^ width (ffmt b)) -> fred_safe o b s l -> like (fred_fmt o b) (gfold (fred_op H o b mode) s l) (fred_fold o b mode s l).
Proof.
  intros H o b mode s l HO HQ HQ2 Hm Hw Hs Hl Safe. rewrite fred_fold_g. pose proof (ffmt_cases b) as Hf.
  assert (LK : forall r, 0 <= fst r < 2 ^ width (ffmt b) -> like (ffmt b) r r) by (intros r R; split; [reflexivity |]; split; [exact R |]; destruct (is_nan (ffmt b) (fst r)); reflexivity).
  destruct o; cbn [fred_safe] in Safe; unfold fred_fmt in *; cbn [fwidening] in *.
  - exact (sum_fold H b mode s l HO HQ2 Hm Hs Hl).
  - exact (sum_fold H b mode s l HO HQ2 Hm Hs Hl).
  - destruct (minmax_fold b true l s Hs Hl Safe) as [E R]. change (gfold (fred_op H Rfmin b mode) s l = gfold (fred_step Rfmin b mode) s l) in E.
    rewrite E. apply LK. exact R.
  - destruct (minmax_fold b false l s Hs Hl Safe) as [E R]. change (gfold (fred_op H Rfmax b mode) s l = gfold (fred_step Rfmax b mode) s l) in E.
    rewrite E. apply LK. exact R.
  - rewrite (Hw eq_refl) in *. exact (wide_fold H mode s l HO HQ HQ2 Hm Hs Hl).
Qed.

(** ** Moves *)
Lemma load_le_shift m1 m2 n : forall a b, (forall k, 0 <= k < Z.of_nat n -> m1 (a + k) = m2 (b + k)) -> load_le m1 a n = load_le m2 b n.
Proof.
  induction n as [|n IH]; intros a b H; cbn [load_le]; [reflexivity|].
  pose proof (H 0 ltac:(lia)) as H0. rewrite !Z.add_0_r in H0. rewrite H0, (IH (a + 1) (b + 1)); [reflexivity|].
  intros k Hk. rewrite <- !Z.add_assoc. apply H. lia.
Qed.
Lemma fill_spec vb w v : 1 <= w -> forall k i n buf, n - i <= Z.of_nat k -> 0 <= i -> (i < n -> n * w <= vb) ->
  exists buf', fill vb w v k i n buf = Some buf' /\
    (forall j, i <= j < n -> load_le buf' (j * w) (Z.to_nat w) = wrap (8 * w) v) /\ (forall a, ~ (i * w <= a < n * w) -> buf' a = buf a).
Proof.
  intros Hw. induction k as [|k IH]; intros i n buf Hk Hi Hn; cbn [fill].
  - exists buf. split; [reflexivity |]. split; [intros j Hj; lia | reflexivity].
  - destruct (Z.ltb_spec i n).
    + destruct (Z.leb_spec ((i + 1) * w) vb); [| exfalso; specialize (Hn ltac:(lia)); nia].
      destruct (IH (i + 1) n (store_le buf (i * w) (Z.to_nat w) v) ltac:(lia) ltac:(lia) ltac:(intros; apply Hn; lia)) as (buf' & E & E1 & E2).
      exists buf'. split; [exact E |]. split.
      * intros j Hj. destruct (Z.eq_dec j i) as [-> | Nj]; [| apply E1; lia].
        rewrite (load_le_ext _ (store_le buf (i * w) (Z.to_nat w) v)) by (rewrite Z2Nat.id by lia; intros a Ha; apply E2; nia).
        rewrite load_store_same, Z2Nat.id by lia. reflexivity.
      * intros a Ha. rewrite E2 by nia. apply store_le_other. rewrite Z2Nat.id by lia. nia.
    + exists buf. split; [reflexivity |]. split; [intros j Hj; lia | reflexivity].
Qed.

Lemma in_filter_range : forall vb rf vs2 w vm n y, byte_mem rf -> 0 <= w -> In y (active_elems vb rf vs2 w vm n) -> 0 <= y < 2 ^ (8 * w).
Proof. intros vb rf vs2 w vm n y Hb Hw Hy. unfold active_elems in Hy. apply in_map_iff in Hy. destruct Hy as (j & <- & _). apply (elem_inw vb rf vs2 w j Hb Hw). Qed.
Lemma exec_fred_spec : forall H st o vd vs2 vs1 vm, let c := cfg (vs st) in
  let wd := if fwidening o then 2 * sew c else sew c in
  let s := elem (vlenb c) (regs (vs st)) vs1 wd 0 in
  let l := active_elems (vlenb c) (regs (vs st)) vs2 (sew c) vm (vl c) in
  let r := fred_fold o (8 * sew c) (frm st) s l in
  host_ok H -> host_quiet_double H -> host_quiet_sum H -> fred_legal (vlenb c) (sew c) (lmul8 c) (vl c) o vs2 -> (fwidening o = true -> lmul8 c <= 32) ->
  byte_mem (regs (vs st)) -> vexc c = false -> vstart c = 0 -> 0 <= frm st <= 3 -> fred_safe o (8 * sew c) s l ->
  exists st', exec_fred H st o vd vs2 vs1 vm = Some st' /\
    like (fred_fmt o (8 * sew c)) (elem (vlenb c) (regs (vs st')) vd wd 0, snd r) r /\ fflags st' = Z.lor (fflags st) (snd r) /\
    (forall a, ~ in_elem (vlenb c) vd wd 0 a -> regs (vs st') a = regs (vs st) a) /\
    cfg (vs st') = set_vstart c 0 /\ fpr st' = fpr st /\ frm st' = frm st.
Proof.
  intros H st o vd vs2 vs1 vm c wd s l r HO HQ HQ2 (HC & HS & HG) Hw Hb Hx Hs Hrm Safe.
  pose proof (sew_ge1 _ _ _ _ HC) as Hs1. pose proof (vl_bits _ _ _ _ HC) as (Hvl & Hvb8).
  assert (1 <= lmul8 c <= 64) as Hl by (destruct HC as (_ & _ & Hl & _); clear - Hl; destruct Hl as [<-|[<-|[<-|[<-|[<-|[<-|[<-|[]]]]]]]]; lia).
  assert (SW : (sew c = 4 \/ sew c = 8) /\ (fwidening o = true -> sew c = 4)) by (clear - HS; unfold fred_sews in HS; destruct (fwidening o); cbn [In] in HS; split; try lia; discriminate).
  destruct SW as [SW SW4].
  assert (Esz : fred_sizes o (sew c) = Some (wd, sew c, wd)).
  { unfold fred_sizes, wd. clear - SW SW4. destruct (fwidening o); [rewrite (SW4 eq_refl); reflexivity |]. destruct SW as [-> | ->]; reflexivity. }
  assert (Hwd : 4 <= wd <= 8) by (unfold wd; clear - SW SW4; destruct (fwidening o); [rewrite (SW4 eq_refl)|]; lia).
  unfold exec_fred. fold c. cbv zeta.
  assert (RV : rounding_mode_valid (frm st) = true) by (unfold rounding_mode_valid; clear - Hrm; apply andb_true_iff; split; lia).
  rewrite RV, Esz, Hx, Hs. change (negb (0 =? 0)) with false. cbn [negb]. cbv iota.
  assert (Z.quot (lmul8 c * sew c) (sew c) = lmul8 c) as Q1 by (apply Z.quot_mul; lia).
  assert (1 <= Z.quot (lmul8 c * wd) (sew c) <= 64) as Q2.
  { unfold wd. destruct (fwidening o); [|rewrite Q1; exact Hl]. specialize (Hw eq_refl).
    replace (lmul8 c * (2 * sew c)) with (2 * lmul8 c * sew c) by ring. rewrite Z.quot_mul by lia. lia. }
  assert (existsb (fun w => 64 <? Z.quot (lmul8 c * w) (sew c)) [wd; sew c; wd] ||
     existsb (fun w => Z.quot (lmul8 c * w) (sew c) =? 0) [wd; sew c; wd] = false) as ->.
  { cbn [existsb]. rewrite Q1. generalize dependent (Z.quot (lmul8 c * wd) (sew c)). intros q Q2. clear - Q2 Hl.
    destruct (Z.ltb_spec 64 q), (Z.ltb_spec 64 (lmul8 c)), (Z.eqb_spec q 0), (Z.eqb_spec (lmul8 c) 0); lia. }
  clear Q1 Q2. destruct (config_vb _ _ _ _ HC) as (q & Hq & Hvb).
  assert (In wd [1; 2; 4; 8]) as Hin by (unfold wd; clear - SW SW4; destruct (fwidening o); [rewrite (SW4 eq_refl) | destruct SW as [-> | ->]]; cbn; auto).
  pose proof (epv_spec q wd Hin Hq) as (He & He1). rewrite <- Hvb in He, He1. clear Hq Hvb He.
  rewrite read_elem0 by exact He1. clear He1. cbn [obind]. fold s.
  pose proof (fred_loop_spec (mask_value (regs (vs st)) vm) (read_elem (vlenb c) (regs (vs st)) vs2 (sew c)) (fred_op H o (8 * sew c) (host_rm (frm st)))
      (elem (vlenb c) (regs (vs st)) vs2 (sew c)) (Z.to_nat (vl c)) 0 s (fflags st)) as HR.
  replace (0 + Z.of_nat (Z.to_nat (vl c))) with (vl c) in HR by lia. rewrite HR; clear HR.
  2: { intros j Hj. apply (read_elem_ok _ (sew c) (lmul8 c) (vl c)); try assumption. }
  replace (map (elem (vlenb c) (regs (vs st)) vs2 (sew c)) (filter (mask_value (regs (vs st)) vm) (zrange_from 0 (Z.to_nat (vl c))))) with l.
  2: { unfold l, active_elems. f_equal. change (zrange_from 0 (Z.to_nat (vl c))) with (zrange (vl c)). symmetry.
       apply filter_ext_range. intros j Hj. apply mask_of_ok. lia. }
  rewrite host_rm_id by exact Hrm. cbv zeta. cbn [obind fst snd].
  assert (W4 : width (ffmt (8 * sew c)) = 8 * sew c) by (clear - SW; destruct SW as [-> | ->]; reflexivity).
  assert (Wd : width (fred_fmt o (8 * sew c)) = 8 * wd) by (unfold fred_fmt, wd; destruct (fwidening o); [rewrite (SW4 eq_refl); reflexivity | exact W4]).
  pose proof (fred_all H o (8 * sew c) (frm st) s l HO HQ HQ2 Hrm (fun E => f_equal (Z.mul 8) (SW4 E))) as L. fold r in L.
  specialize (L ltac:(rewrite Wd; apply (elem_inw (vlenb c) (regs (vs st)) vs1 wd 0 Hb); clear - Hwd; lia)).
  specialize (L ltac:(intros y Hy; rewrite W4; apply (in_filter_range (vlenb c) (regs (vs st)) vs2 (sew c) vm (vl c)); [exact Hb | clear - Hs1; lia | exact Hy]) Safe).
  destruct (gfold (fred_op H o (8 * sew c) (frm st)) s l) as [v fl]. destruct L as (L1 & L2 & L3). cbn [fst snd] in *.
  destruct (submit_store0 (vlenb c) (regs (vs st)) vd wd v) as (S1 & S2); [lia|].
  assert (WV : wrap (8 * wd) v = v) by (unfold wrap; apply Z.mod_small; rewrite <- Wd; exact L2).
  eexists. split; [reflexivity |]. cbn [vs regs cfg fpr frm fflags]. rewrite S1, WV, L1. split; [split; [reflexivity |]; split; assumption |]. split; [reflexivity |].
  split; [exact S2 |]. repeat split.
Qed.
