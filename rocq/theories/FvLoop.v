(** The loops of the vector floating-point instructions. *)
From Coq Require Import ZArith Bool List Lia.
From Verif Require Import Bits Memory IeeeSpec FpSpec FarithSpec FpModel FarithModel VelemSpec VcfgModel VelemModel VelemProofs3 VelemProofs4 VelemProofs5 FvSpec FvModel.
Import ListNotations.
Local Open Scope Z_scope.

(** One flag of the accumulated flags behaves like the accumulated vxsat. *)
Definition project (k : Z) (body : mem -> Z -> option (option Z * Z)) : mem -> Z -> option (option Z * bool) :=
  fun rf vi => option_map (fun p => (fst p, Z.testbit (snd p) k)) (body rf vi).

Lemma fitems_project k body wd fuel : forall rf buf i count vi n fl,
  items (project k body) wd fuel rf buf i count vi n (Z.testbit fl k) =
  option_map (fun t => (fst t, Z.testbit (snd t) k)) (fitems body wd fuel rf buf i count vi n fl).
Proof.
  induction fuel as [|fuel IH]; intros rf buf i count vi n fl; cbn [items fitems]; [reflexivity|].
  destruct ((i <? count) && (vi <? n)); [|reflexivity].
  unfold project at 1. destruct (body rf vi) as [[v f]|]; cbn [option_map obind fst snd]; [|reflexivity].
  rewrite <- IH. rewrite Z.lor_spec. reflexivity.
Qed.

Lemma fregs_project k body vb wd vd epv mr n fuel : forall rf reg item vi fl,
  regs_loop (project k body) vb wd vd epv mr n fuel rf reg item vi (Z.testbit fl k) =
  option_map (fun t => (fst t, Z.testbit (snd t) k)) (fregs_loop body vb wd vd epv mr n fuel rf reg item vi fl).
Proof.
  induction fuel as [|fuel IH]; intros rf reg item vi fl; cbn [regs_loop fregs_loop]; [reflexivity|].
  destruct ((reg <? mr) && (vi <? n)); [|reflexivity].
  rewrite fitems_project.
  destruct (fitems _ _ _ _ _ _ _ _ _ _) as [[[buf vi'] fl']|]; cbn [option_map obind fst snd]; [|reflexivity].
  apply IH.
Qed.

(** The integer instruction with the same operands. *)
Definition surrogate (o : fvop) : vop := if has_f1 o then if freads_vd o then Vmacc else Vadd else Vbrev.
Definition vi_of (fpr : Z -> Z) (I : fvinst) : vinst :=
  {| vi_op := surrogate (fi_op I); vi_vd := fi_vd I; vi_vs2 := fi_vs2 I;
     vi_src1 := operand1 fpr (fi_op I) (fi_src1 I); vi_vm := fi_vm I |}.

Lemma surrogate_src1 o : has_src1 (surrogate o) = has_f1 o.
Proof. unfold surrogate. destruct (has_f1 o); [destruct (freads_vd o)|]; reflexivity. Qed.
Lemma surrogate_vd o : reads_vd (surrogate o) = freads_vd o.
Proof. destruct o; reflexivity. Qed.

Definition not_wired_wrong (o : fvop) : bool := match o with Vfwaddw | Vfwsubw | Vfmerge => false | _ => true end.
Lemma semfunc_id o : not_wired_wrong o = true -> fv_semfunc o = o.
Proof. destruct o; cbn; congruence. Qed.

Lemma flegal_operands vb sew lmul8 vl fpr I wd w2 w1 : flegal vb sew lmul8 vl I -> fwidths (fi_op I) sew = (wd, w2, w1) ->
  not_wired_wrong (fi_op I) = true -> operands_ok vb sew lmul8 vl (vi_of fpr I) wd w2 w1.
Proof.
  unfold flegal. intros H E N. rewrite E in H. destruct H as (HC & _ & HD & H2 & HO & H1 & _).
  split; [exact HC|]. split; [exact HD|]. split; [exact H2|]. split; [exact HO|].
  cbn [vi_of vi_op vi_src1]. rewrite surrogate_src1. intros Hs. rewrite Hs in H1. unfold operand1.
  destruct (fi_src1 I); [exact H1|]. destruct (fi_op I); try exact Logic.I. discriminate N.
Qed.

Lemma fsizes_ok vb sew lmul8 vl I : flegal vb sew lmul8 vl I -> fsizes (fi_op I) sew = Some (fwidths (fi_op I) sew).
Proof.
  unfold flegal. destruct (fwidths (fi_op I) sew) as [[wd w2] w1] eqn:E. intros (_ & Hk & _). rewrite <- E. clear E.
  destruct (fi_op I); cbn [fsews] in Hk; cbn [fwidths fsizes];
    cbn [In] in Hk; repeat (destruct Hk as [<- | Hk]; [reflexivity |]); contradiction.
Qed.

Lemma femul_checks vb sew lmul8 vl fpr I wd w2 w1 : operands_ok vb sew lmul8 vl (vi_of fpr I) wd w2 w1 ->
  fwidths (fi_op I) sew = (wd, w2, w1) ->
  let ws := match fshape (fi_op I) with Unary => [wd; w2] | _ => [wd; w2; w1] end in
  let lmul_of w := Z.quot (lmul8 * w) sew in
  existsb (fun w => 64 <? lmul_of w) ws || existsb (fun w => lmul_of w =? 0) ws = false.
Proof.
  intros (HC & (_ & Hd & _) & (_ & H2 & _) & _) E. cbv zeta.
  assert (w1 = sew) as ->. { destruct (fi_op I); cbn [fwidths] in E; injection E as _ _ <-; reflexivity. }
  destruct HC as (_ & Hs & Hl & _).
  assert (1 <= sew) by (destruct Hs as [<-|[<-|[<-|[<-|[]]]]]; lia).
  assert (1 <= lmul8 <= 64) by (destruct Hl as [<-|[<-|[<-|[<-|[<-|[<-|[<-|[]]]]]]]]; lia).
  assert (forall w, 1 <= emul8 sew lmul8 w <= 64 -> (64 <? Z.quot (lmul8 * w) sew) = false /\ (Z.quot (lmul8 * w) sew =? 0) = false) as HE.
  { intros w Hw. unfold emul8 in Hw.
    assert (0 <= lmul8 * w). { destruct (Z.leb_spec 0 (lmul8 * w)); [assumption|]. pose proof (Z.div_lt_upper_bound (lmul8 * w) sew 0); lia. }
    rewrite Z.quot_div_nonneg by lia. split; [apply Z.ltb_ge|apply Z.eqb_neq]; lia. }
  assert (emul8 sew lmul8 sew = lmul8) as ES by (unfold emul8; apply Z.div_mul; lia).
  assert (1 <= emul8 sew lmul8 sew <= 64) as CE by (rewrite ES; assumption).
  destruct (HE wd Hd) as (A1 & A2). destruct (HE w2 H2) as (B1 & B2). destruct (HE sew CE) as (C1 & C2).
  destruct (fshape (fi_op I)); cbn [existsb]; rewrite A1, A2, B1, B2, ?C1, ?C2; reflexivity.
Qed.

(** One iteration, on the operands. *)
Definition fiter' (H : host) (wide : bool) (o : fvop) (b rm wd : Z) (m : bool) (x y z : Z) : option (option Z * Z) :=
  if m then obind (elem_fn H wide o b rm m x y z) (fun rs => Some (Some (wrap (8 * wd) (fst rs)), snd rs))
  else Some (None, 0).

Lemma fiter_ok H wide vb sew lmul8 vl fpr I wd w2 w1 b rm m rf j :
  operands_ok vb sew lmul8 vl (vi_of fpr I) wd w2 w1 -> not_wired_wrong (fi_op I) = true -> 0 <= j < vl ->
  fiter H wide (fi_op I) b rm vb wd w2 w1 (fi_vd I) (fi_vs2 I) (operand1 fpr (fi_op I) (fi_src1 I)) m rf j =
  fiter' H wide (fi_op I) b rm wd m (elem vb rf (fi_vs2 I) w2 j) (src1_of vb (vi_of fpr I) w1 rf j) (vd_of vb (vi_of fpr I) wd rf j).
Proof.
  intros (HC & HD & H2 & HO & H1) N Hj.
  assert (R2 : read_elem vb rf (fi_vs2 I) w2 j = Some (elem vb rf (fi_vs2 I) w2 j)) by (apply (read_elem_ok vb sew lmul8 vl); assumption).
  assert (RD : read_elem vb rf (fi_vd I) wd j = Some (elem vb rf (fi_vd I) wd j)) by (apply (read_elem_ok vb sew lmul8 vl); assumption).
  unfold src1_of, vd_of. cbn [vi_of vi_op vi_src1 vi_vd] in *. rewrite surrogate_src1, surrogate_vd in *.
  assert (R1 : has_f1 (fi_op I) = true -> read_src1 vb rf w1 (operand1 fpr (fi_op I) (fi_src1 I)) j =
    Some (src1_elem vb rf w1 (operand1 fpr (fi_op I) (fi_src1 I)) j)).
  { intros Hh. apply (read_src1_ok vb sew lmul8 vl); [exact HC | | exact Hj]. specialize (H1 Hh).
    destruct (operand1 fpr (fi_op I) (fi_src1 I)); [apply H1 | exact Logic.I]. }
  unfold fiter, fiter'. destruct (fi_op I); cbn [fshape has_f1 freads_vd not_wired_wrong] in *; try discriminate N;
    rewrite ?R2, ?RD; cbn [obind]; rewrite ?(R1 eq_refl); cbn [obind]; destruct m; reflexivity.
Qed.

(** The whole instruction, for any relation the elements satisfy. *)
Theorem fexec_elementwise (R : fvop -> Z -> Z -> bool -> Z -> Z -> Z -> Z -> Z -> Prop) H wide st I wd w2 w1 :
  let c := cfg (vs st) in let rf0 := regs (vs st) in
  flegal (vlenb c) (sew c) (lmul8 c) (vl c) I -> not_wired_wrong (fi_op I) = true ->
  byte_mem rf0 -> vexc c = false -> 0 <= vstart c -> 0 <= frm st <= 4 -> fwidths (fi_op I) (sew c) = (wd, w2, w1) ->
  (forall j, factive (vlenb c) (vstart c) (vl c) rf0 I j ->
     exists r fl, elem_fn H wide (fi_op I) (8 * sew c) (frm st) true (elem (vlenb c) rf0 (fi_vs2 I) w2 j)
       (src1_of (vlenb c) (vi_of (fpr st) I) w1 rf0 j) (vd_of (vlenb c) (vi_of (fpr st) I) wd rf0 j) = Some (r, fl) /\
     R (fi_op I) (8 * sew c) (frm st) true (elem (vlenb c) rf0 (fi_vs2 I) w2 j)
       (fsrc_elem (vlenb c) rf0 (fpr st) w1 (fi_src1 I) j) (elem (vlenb c) rf0 (fi_vd I) wd j) (wrap (8 * wd) r) fl) ->
  exists st', fexec H wide st I = Some st' /\
    felementwise R (vlenb c) (sew c) (frm st) (vstart c) (vl c) (fpr st) I rf0 (regs (vs st')) (fflags st) (fflags st') /\
    cfg (vs st') = set_vstart c 0 /\ fpr st' = fpr st /\ frm st' = frm st.
Proof.
  intros c rf0 HL N Hb Hx Hst Hrm E HE.
  pose proof (flegal_operands _ _ _ _ (fpr st) _ _ _ _ HL E N) as HO. pose proof HO as (HC & HD & _). cbn [vi_of vi_vd] in HD.
  destruct (config_vb _ _ _ _ HC) as (m & Hm & Hvb).
  pose proof (epv_spec m wd (proj1 HD) Hm) as (He & He1). rewrite <- Hvb in He, He1.
  pose proof (group_holds _ _ _ _ _ _ HC HD) as (Hh & Hg1). pose proof (num_regs_ge _ _ _ _ _ _ HC HD) as Hnr.
  assert (1 <= wd) as Hwd1. { destruct HD as (Hw & _). clear -Hw. destruct Hw as [<-|[<-|[<-|[<-|[]]]]]; lia. }
  assert (0 <= vl c) as Hvl0. { destruct HC as (_ & _ & _ & HV). lia. }
  unfold fexec. fold c rf0. rewrite (semfunc_id _ N).
  assert (RV : rounding_mode_valid (frm st) = true).
  { unfold rounding_mode_valid. apply andb_true_intro. split; apply Z.leb_le; lia. }
  rewrite RV. cbn [negb]. rewrite andb_false_r. rewrite (fsizes_ok _ _ _ _ _ HL). rewrite E. rewrite Hx.
  pose proof (femul_checks _ _ _ _ _ _ _ _ _ HO E) as EC. cbv zeta in EC |- *. rewrite EC. clear EC.
  set (epv := vlenb c / wd) in *. set (n := vl c) in *. set (mr := (n + epv - 1) / epv).
  assert (n <= nregs (sew c) (lmul8 c) wd * epv) as Hng by nia.
  assert (mr <= nregs (sew c) (lmul8 c) wd) as Hmr. { unfold mr. apply Z.lt_succ_r. apply Z.div_lt_upper_bound; nia. }
  destruct (Z.ltb_spec (num_regs (fi_vd I)) mr); [lia|].
  assert (n <= mr * epv) as Hn1.
  { unfold mr. pose proof (Z.div_mod (n + epv - 1) epv ltac:(lia)). pose proof (Z.mod_pos_bound (n + epv - 1) epv ltac:(lia)). nia. }
  assert ((mr - 1) * epv < n \/ n <= 0) as Hn2.
  { destruct (Z.leb_spec n 0); [right; lia|left]. unfold mr. pose proof (Z.mul_div_le (n + epv - 1) epv ltac:(lia)). nia. }
  set (body := fun rf vi => fiter H wide (fi_op I) (8 * sew c) (frm st) (vlenb c) wd w2 w1 (fi_vd I) (fi_vs2 I)
                 (operand1 (fpr st) (fi_op I) (fi_src1 I)) (mask_value rf0 (fi_vm I) vi) rf vi).
  assert (HB : forall rf j, 0 <= j < n -> body rf j = fiter' H wide (fi_op I) (8 * sew c) (frm st) wd (fmbit (vlenb c) rf0 I j)
     (elem (vlenb c) rf (fi_vs2 I) w2 j) (src1_of (vlenb c) (vi_of (fpr st) I) w1 rf j) (vd_of (vlenb c) (vi_of (fpr st) I) wd rf j)).
  { intros rf j Hj. unfold body. change (fi_vm I) with (vi_vm (vi_of (fpr st) I)). rewrite (mask_ok (vlenb c)) by lia.
    apply (fiter_ok H wide _ (sew c) (lmul8 c) n); assumption. }
  assert (MG : fmerges (fi_op I) = false) by (destruct (fi_op I); cbn in N |- *; congruence).
  assert (HB0 : forall j, vstart c <= j < n -> exists r fl, body rf0 j =
     Some ((if fmbit (vlenb c) rf0 I j then Some (wrap (8 * wd) r) else None), fl) /\
     (fmbit (vlenb c) rf0 I j = true ->
       R (fi_op I) (8 * sew c) (frm st) true (elem (vlenb c) rf0 (fi_vs2 I) w2 j)
         (fsrc_elem (vlenb c) rf0 (fpr st) w1 (fi_src1 I) j) (elem (vlenb c) rf0 (fi_vd I) wd j) (wrap (8 * wd) r) fl) /\
     (fmbit (vlenb c) rf0 I j = false -> fl = 0)).
  { intros j Hj. rewrite HB by lia. unfold fiter'. destruct (fmbit (vlenb c) rf0 I j) eqn:Ma.
    2: { exists 0, 0. split; [reflexivity|]. split; [discriminate|reflexivity]. }
    destruct (HE j) as (r & fl & Er & HR). { split; [exact Hj|]. rewrite MG, Ma. reflexivity. }
    rewrite Er. cbn [obind fst snd]. exists r, fl. split; [reflexivity|]. split; [intros _; exact HR | discriminate]. }
  assert (Hhaz : forall rf j, vstart c <= j < n ->
    (forall a, ~ (fi_vd I * vlenb c <= a < (fi_vd I + j / epv) * vlenb c) -> rf a = rf0 a) -> body rf j = body rf0 j).
  { intros rf j Hj Hag. rewrite !HB by lia.
    destruct (operands_ext _ _ _ _ _ _ _ _ rf rf0 j HO ltac:(lia) Hag) as (E1 & -> & ->). cbn [vi_of vi_vs2] in E1. rewrite E1. reflexivity. }
  assert (LS : forall k, exists rf' s', option_map (fun t => (fst t, Z.testbit (snd t) k))
      (fregs_loop body (vlenb c) wd (fi_vd I) epv mr n (Z.to_nat mr) rf0 (vstart c / epv) (vstart c mod epv) (vstart c) (fflags st)) = Some (rf', s') /\
    (forall a, rf' a = upto (project k body) (vlenb c) wd (fi_vd I) rf0 (vstart c) (Z.max (vstart c) n) a) /\
    sat_upto (project k body) rf0 (vstart c) (Z.testbit (fflags st) k) (Z.max (vstart c) n) s').
  { intros k. rewrite <- fregs_project. refine (loop_spec (project k body) (vlenb c) wd (fi_vd I) epv n rf0 (vstart c) Hwd1 He1 He Hst _ _ _ mr Hn1 Hn2).
    - intros j Hj. destruct (HB0 j Hj) as (r & fl & Er & _). unfold project. rewrite Er. discriminate.
    - intros rf j Hj Hag. unfold project. rewrite (Hhaz rf j Hj Hag). reflexivity. }
  destruct (fregs_loop body (vlenb c) wd (fi_vd I) epv mr n (Z.to_nat mr) rf0 (vstart c / epv) (vstart c mod epv) (vstart c) (fflags st))
    as [[rf' fl']|] eqn:EL.
  2: { destruct (LS 0) as (? & ? & X & _). discriminate X. }
  cbn [option_map fst snd] in LS.
  cbn [obind fst snd]. eexists. split; [reflexivity|]. cbn [vs regs cfg fpr frm fflags].
  split; [|split; [reflexivity|split; reflexivity]].
  assert (Hrf' : forall a, rf' a = upto (project 0 body) (vlenb c) wd (fi_vd I) rf0 (vstart c) (Z.max (vstart c) n) a).
  { destruct (LS 0) as (rf1 & s1 & X & Y & _). injection X as -> _. exact Y. }
  unfold felementwise. rewrite E.
  exists (fun j => match body rf0 j with Some (_, fl) => fl | None => 0 end).
  split; [|split].
  - intros j (Hj & Ha). rewrite MG in Ha. cbn [orb] in Ha. destruct (HB0 j Hj) as (r & fl & Er & HR & _). rewrite Ha in Er. rewrite Er. rewrite Ha.
    replace (elem (vlenb c) rf' (fi_vd I) wd j) with (wrap (8 * wd) r); [exact (HR Ha)|].
    symmetry. unfold elem.
    rewrite (load_le_ext rf' (store_le rf0 (fi_vd I * vlenb c + j * wd) (Z.to_nat wd) (wrap (8 * wd) r))).
    + rewrite load_store_same. rewrite Z2Nat.id by lia. apply wrap_wrap; lia.
    + rewrite Z2Nat.id by lia. intros a Ha'. rewrite Hrf'. rewrite store_le_same by (rewrite Z2Nat.id; lia).
      unfold upto. cbv zeta. rewrite (idx_spec (vlenb c) wd (fi_vd I) a j) by lia.
      rewrite (proj2 (Z.leb_le (vstart c) j)) by apply Hj. rewrite (proj2 (Z.ltb_lt j (Z.max (vstart c) n))) by (clear - Hj; lia). cbn [andb].
      unfold F, project. rewrite Er. reflexivity.
  - intros a Hna. rewrite Hrf'. unfold upto. cbv zeta.
    destruct (Z.leb_spec (vstart c) (idx (vlenb c) wd (fi_vd I) a)) as [G1|G1], (Z.ltb_spec (idx (vlenb c) wd (fi_vd I) a) (Z.max (vstart c) n)) as [G2|G2]; cbn [andb]; try reflexivity.
    set (j := idx (vlenb c) wd (fi_vd I) a) in *.
    assert (Hj' : vstart c <= j < n) by (clear - G1 G2; lia).
    destruct (HB0 j Hj') as (r & fl & Er & _).
    unfold F, project. rewrite Er. cbn [option_map fst]. destruct (fmbit (vlenb c) rf0 I j) eqn:Ha; [|reflexivity].
    exfalso. apply (Hna j); [split; [exact Hj'|rewrite Ha; apply orb_true_r]|]. apply (idx_bounds (vlenb c) wd (fi_vd I) a Hwd1).
  - intros k Hk. destruct (LS k) as (rf1 & s1 & X & _ & Y). injection X as _ X. subst s1. unfold sat_upto in Y. rewrite Y. split.
    + intros [H1|(j & Hj & HS)]; [left; exact H1|right]. exists j.
      assert (Hj' : vstart c <= j < n) by (clear - Hj; lia).
      destruct (HB0 j Hj') as (r & fl & Er & _ & Hf). unfold VelemProofs3.S, project in HS. rewrite Er in HS |- *. cbn [option_map fst snd] in HS.
      split; [|exact HS]. split; [exact Hj'|]. rewrite MG. cbn [orb].
      destruct (fmbit (vlenb c) rf0 I j); [reflexivity|]. rewrite (Hf eq_refl), Z.bits_0 in HS. discriminate.
    + intros [H1|(j & (Hj & _) & HS)]; [left; exact H1|right]. exists j. split; [clear - Hj; lia|].
      unfold VelemProofs3.S, project. destruct (HB0 j Hj) as (r & fl & Er & _). rewrite Er in HS |- *. exact HS.
Qed.
