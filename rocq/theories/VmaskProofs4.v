(** viota, vid, reductions and moves. *)
From Coq Require Import ZArith Bool List Lia.
From Verif Require Import Bits Memory VelemSpec VmaskSpec VcfgModel VelemModel VelemProofs4 VmaskModel VmaskProofs1 VmaskProofs2 VmaskProofs3.
Import ListNotations.
Local Open Scope Z_scope.

Lemma exec_iota_spec st vd vs2 vm :
  let c := cfg st in
  config (vlenb c) (sew c) (lmul8 c) (vl c) -> group (sew c) (lmul8 c) (sew c) vd -> vexc c = false -> vstart c = 0 ->
  (vs2 + 1 <= vd \/ vd + nregs (sew c) (lmul8 c) (sew c) <= vs2) ->
  cfg (exec_iota st vd vs2 vm) = set_vstart c 0 /\
  (forall j, 0 <= j < vl c -> mask_of (vlenb c) (regs st) vm j = true ->
     elem (vlenb c) (regs (exec_iota st vd vs2 vm)) vd (sew c) j =
       wrap (8 * sew c) (Z.of_nat (length (hits (vlenb c) (regs st) vs2 vm j)))) /\
  (forall a, (forall j, 0 <= j < vl c -> mask_of (vlenb c) (regs st) vm j = true -> ~ in_elem (vlenb c) vd (sew c) j a) ->
     regs (exec_iota st vd vs2 vm) a = regs st a).
Proof.
  intros c HC HD Hx Hs Hd. unfold exec_iota. fold c. rewrite (sew_in _ _ _ _ HC).
  pose proof (mask_nullary_spec st (fun k b => (if b then k + 1 else k, k)) vd (Some vs2) vm (cnt (hit (vlenb c) (regs st) vs2 vm))
    HC HD Hx ltac:(fold c; lia) Hd) as H. cbv zeta in H. fold c in H. rewrite Hs in H.
  apply H; [reflexivity|]. intros j Hj. cbn [fst]. rewrite cnt_step by lia. unfold hit.
  destruct (_ && _); cbn [Z.b2z]; lia.
Qed.
Lemma exec_id_spec st vd vm :
  let c := cfg st in
  config (vlenb c) (sew c) (lmul8 c) (vl c) -> group (sew c) (lmul8 c) (sew c) vd -> vexc c = false -> 0 <= vstart c ->
  cfg (exec_id st vd vm) = set_vstart c 0 /\
  (forall j, vstart c <= j < vl c -> mask_of (vlenb c) (regs st) vm j = true ->
     elem (vlenb c) (regs (exec_id st vd vm)) vd (sew c) j = wrap (8 * sew c) (j - vstart c)) /\
  (forall a, (forall j, vstart c <= j < vl c -> mask_of (vlenb c) (regs st) vm j = true -> ~ in_elem (vlenb c) vd (sew c) j a) ->
     regs (exec_id st vd vm) a = regs st a).
Proof.
  intros c HC HD Hx Hs. unfold exec_id. fold c. rewrite (sew_in _ _ _ _ HC).
  pose proof (mask_nullary_spec st (fun k b => (k + 1, k)) vd None vm (fun j => j - vstart c) HC HD Hx Hs I) as H.
  cbv zeta in H. fold c in H. apply H; [lia|]. intros j Hj. cbn [fst]. lia.
Qed.

(** Reductions. *)
Lemma red_loop_spec m read op el k : forall i acc, (forall j, i <= j < i + Z.of_nat k -> read j = Some (el j)) ->
  red_loop m read op k i (i + Z.of_nat k) acc = Some (fold_left op (map el (filter m (zrange_from i k))) acc).
Proof.
  induction k as [|k IH]; intros i acc Hr; cbn [red_loop zrange_from filter map fold_left]; [reflexivity|].
  destruct (Z.ltb_spec i (i + Z.of_nat (S k))); [|lia].
  replace (i + Z.of_nat (S k)) with (i + 1 + Z.of_nat k) by lia.
  destruct (m i); [rewrite Hr by lia; cbn [obind map fold_left]|]; apply IH; intros j Hj; apply Hr; lia.
Qed.

Definition op_width (o : vred) (b : Z) : Z := if widening o then 2 * b else b.
Lemma fold_sum w (f : Z -> Z -> Z) (l : list Z) : 0 <= w -> forall a, inw w a -> (forall x a, f a x = f 0 x + a) ->
  fold_left (fun a x => wrap w (f a x)) l a = wrap w (a + fold_right Z.add 0 (map (f 0) l)).
Proof.
  intros Hw. induction l as [|x l IH]; intros a Ha Hf; cbn [fold_left map fold_right].
  - rewrite Z.add_0_r, wrap_id; [reflexivity|exact Ha].
  - rewrite IH; [|apply wrap_range; lia|exact Hf]. rewrite wrap_add_l by lia. rewrite (Hf x a). f_equal. lia.
Qed.
Lemma fold_ext {A B} (f g : A -> B -> A) l : (forall a x, In x l -> f a x = g a x) -> forall a, fold_left f l a = fold_left g l a.
Proof.
  induction l as [|x l IH]; intros H a; cbn [fold_left]; [reflexivity|].
  rewrite H by (left; reflexivity). apply IH. intros a' y Hy. apply H. right. exact Hy.
Qed.
Lemma fold_sgn b (sel : Z -> Z -> Z) (pick : Z -> Z -> Z) l :
  (forall a x, inw b a -> inw b x -> inw b (sel a x) /\ sgn b (sel a x) = pick (sgn b a) (sgn b x)) ->
  (forall x y z, pick (pick x y) z = pick x (pick y z)) -> (forall x y, pick x y = pick y x) ->
  forall a, inw b a -> (forall x, In x l -> inw b x) ->
  inw b (fold_left sel l a) /\ sgn b (fold_left sel l a) = fold_right pick (sgn b a) (map (sgn b) l).
Proof.
  intros Hsel Has Hco. induction l as [|x l IH]; intros a Ha Hl; cbn [fold_left map fold_right]; [split; [exact Ha|reflexivity]|].
  destruct (Hsel a x Ha (Hl x (or_introl eq_refl))) as (H1 & H2).
  destruct (IH (sel a x) H1 (fun y Hy => Hl y (or_intror Hy))) as (H3 & H4). split; [exact H3|].
  rewrite H4, H2. clear - Has Hco. induction (map (sgn b) l) as [|y l' IH']; cbn [fold_right]; [apply Hco|].
  rewrite IH'. rewrite <- Has, (Hco y), Has. reflexivity.
Qed.
Lemma red_fold o b acc l : In b [8; 16; 32; 64] -> inw (op_width o b) acc -> (forall x, In x l -> inw b x) ->
  fold_left (red_op o b) l acc = red_spec o b acc l.
Proof.
  intros Hb Ha Hl. assert (8 <= b) by (destruct Hb as [<-|[<-|[<-|[<-|[]]]]]; lia).
  destruct o; unfold op_width in Ha; cbn [widening] in Ha; cbn [red_spec]; unfold red_op.
  - rewrite (fold_sum b (fun a x => a + x)) by (try assumption; intros; lia). do 3 f_equal. rewrite <- (map_id l) at 2. apply map_ext. intros; lia.
  - apply fold_symmetric; intros; [apply Z.land_assoc|apply Z.land_comm].
  - apply fold_symmetric; intros; [apply Z.lor_assoc|apply Z.lor_comm].
  - apply fold_symmetric; intros; [symmetry; apply Z.lxor_assoc|apply Z.lxor_comm].
  - rewrite (fold_ext _ Z.min) by (intros a x _; destruct (Z.ltb_spec x a); lia). apply fold_symmetric; intros; lia.
  - destruct (fold_sgn b (fun a x => if sgn b x <? sgn b a then x else a) Z.min l) with (a := acc) as (H1 & H2); try assumption; try (intros; lia).
    + intros a x Hx Hy. destruct (Z.ltb_spec (sgn b x) (sgn b a)); (split; [assumption|lia]).
    + rewrite <- H2. rewrite wrap_sgn by lia. symmetry. apply wrap_id. exact H1.
  - rewrite (fold_ext _ Z.max) by (intros a x _; destruct (Z.ltb_spec a x); lia). apply fold_symmetric; intros; lia.
  - destruct (fold_sgn b (fun a x => if sgn b a <? sgn b x then x else a) Z.max l) with (a := acc) as (H1 & H2); try assumption; try (intros; lia).
    + intros a x Hx Hy. destruct (Z.ltb_spec (sgn b a) (sgn b x)); (split; [assumption|lia]).
    + rewrite <- H2. rewrite wrap_sgn by lia. symmetry. apply wrap_id. exact H1.
  - rewrite (fold_sum (2 * b) (fun a x => a + x)) by (try assumption; intros; lia). do 3 f_equal. rewrite <- (map_id l) at 2. apply map_ext. intros; lia.
  - rewrite (fold_sum (2 * b) (fun a x => a + sgn b x)) by (try assumption; intros; lia). do 3 f_equal.
Qed.

Lemma num_regs_pos r : 0 < num_regs r.
Proof.
  unfold num_regs. pose proof (Z.mod_pos_bound r 8 ltac:(lia)). generalize dependent (r mod 8). intros x Hx.
  assert (forallb (fun x => 0 <? nth (Z.to_nat x) [8; 1; 2; 1; 4; 1; 2; 1] 0) (zrange 8) = true) as T by reflexivity.
  apply Z.ltb_lt. apply (forall_zrange _ _ T x Hx).
Qed.
Lemma read_elem0 vb rf r w : 1 <= vb / w -> read_elem vb rf r w 0 = Some (elem vb rf r w 0).
Proof.
  intros H. unfold read_elem, elem. rewrite Z.div_0_l, Z.mod_0_l by lia. pose proof (num_regs_pos r).
  destruct (Z.ltb_spec 0 (num_regs r)); [|lia]. do 2 f_equal. lia.
Qed.

(** Writing element 0 of a register through a copied buffer. *)
Lemma submit_store0 vb rf r w v : 1 <= w <= vb ->
  elem vb (submit vb rf (store_le (copy_reg vb rf r) 0 (Z.to_nat w) v) r) r w 0 = wrap (8 * w) v /\
  forall a, ~ in_elem vb r w 0 a -> submit vb rf (store_le (copy_reg vb rf r) 0 (Z.to_nat w) v) r a = rf a.
Proof.
  intros Hw. split.
  - unfold elem. rewrite (load_le_ext _ (store_le rf (r * vb + 0 * w) (Z.to_nat w) v)).
    + rewrite load_store_same, Z2Nat.id by lia. reflexivity.
    + rewrite Z2Nat.id by lia. intros a Ha. rewrite store_le_same by (rewrite Z2Nat.id; lia).
      unfold submit. destruct (Z.leb_spec (r * vb) a), (Z.ltb_spec a ((r + 1) * vb)); try nia. cbn [andb].
      rewrite store_le_same by (rewrite Z2Nat.id; lia). do 4 f_equal. lia.
  - intros a Ha. unfold in_elem in Ha. unfold submit. destruct (Z.leb_spec (r * vb) a), (Z.ltb_spec a ((r + 1) * vb)); try reflexivity. cbn [andb].
    rewrite store_le_other by (rewrite Z2Nat.id; lia). unfold copy_reg. f_equal. lia.
Qed.

Lemma sew_bits vb sew lmul8 vl : config vb sew lmul8 vl -> In (8 * sew) [8; 16; 32; 64].
Proof. intros (_ & Hs & _). destruct Hs as [<-|[<-|[<-|[<-|[]]]]]; cbn; auto. Qed.
Lemma exec_red_spec st o vd vs2 vs1 vm :
  let c := cfg st in
  let wd := if widening o then 2 * sew c else sew c in
  let x := elem (vlenb c) (regs st) vs1 (sew c) 0 in
  config (vlenb c) (sew c) (lmul8 c) (vl c) -> group (sew c) (lmul8 c) (sew c) vs2 ->
  (widening o = true -> sew c <= 4 /\ lmul8 c <= 32) ->
  byte_mem (regs st) -> vexc c = false -> vstart c = 0 ->
  exists st', exec_red st o vd vs2 vs1 vm = Some st' /\ cfg st' = set_vstart c 0 /\
    elem (vlenb c) (regs st') vd wd 0 =
      red_spec o (8 * sew c) (match o with Rwsum => wrap (16 * sew c) (sgn (8 * sew c) x) | _ => x end)
        (active_elems (vlenb c) (regs st) vs2 (sew c) vm (vl c)) /\
    (forall a, ~ in_elem (vlenb c) vd wd 0 a -> regs st' a = regs st a).
Proof.
  intros c wd x HC HG Hw Hb Hx Hs.
  pose proof (sew_ge1 _ _ _ _ HC) as Hs1. pose proof (vl_bits _ _ _ _ HC) as (Hvl & Hvb8).
  pose proof (sew_bits _ _ _ _ HC) as Hbits.
  assert (1 <= lmul8 c <= 64) as Hl by (destruct HC as (_ & _ & Hl & _); clear - Hl; destruct Hl as [<-|[<-|[<-|[<-|[<-|[<-|[<-|[]]]]]]]]; lia).
  assert (1 <= sew c <= 8) as Hsw by (destruct HC as (_ & Hl' & _); clear - Hl'; destruct Hl' as [<-|[<-|[<-|[<-|[]]]]]; lia).
  assert (red_sizes o (sew c) = Some (wd, sew c, sew c)) as Esz.
  { destruct HC as (_ & Hse & _). unfold wd. clear - Hse Hw. destruct Hse as [E|[E|[E|[E|[]]]]]; rewrite <- E in *; destruct o; cbn in Hw |- *; try reflexivity; destruct (Hw eq_refl); lia. }
  unfold exec_red. fold c. rewrite Esz, Hx, Hs. change (negb (0 =? 0)) with false. cbv iota zeta.
  assert (1 <= wd <= 8) as Hwd by (unfold wd; destruct (widening o); [destruct (Hw eq_refl)|]; lia).
  assert (Z.quot (lmul8 c * sew c) (sew c) = lmul8 c) as Q1 by (apply Z.quot_mul; lia).
  assert (1 <= Z.quot (lmul8 c * wd) (sew c) <= 64) as Q2.
  { unfold wd. destruct (widening o); [|rewrite Q1; exact Hl]. destruct (Hw eq_refl).
    replace (lmul8 c * (2 * sew c)) with (2 * lmul8 c * sew c) by ring. rewrite Z.quot_mul by lia. lia. }
  assert (existsb (fun w => 64 <? Z.quot (lmul8 c * w) (sew c)) [wd; sew c; sew c] ||
     existsb (fun w => Z.quot (lmul8 c * w) (sew c) =? 0) [wd; sew c; sew c] = false) as ->.
  { cbn [existsb]. rewrite Q1. generalize dependent (Z.quot (lmul8 c * wd) (sew c)). intros q Q2.
    destruct (Z.ltb_spec 64 q), (Z.ltb_spec 64 (lmul8 c)), (Z.eqb_spec q 0), (Z.eqb_spec (lmul8 c) 0); lia. }
  clear Q1 Q2. destruct (config_vb _ _ _ _ HC) as (q & Hq & Hvb).
  assert (In (sew c) [1; 2; 4; 8]) as Hin by (destruct HC as (_ & Hin & _); exact Hin).
  pose proof (epv_spec q (sew c) Hin Hq) as (He & He1). rewrite <- Hvb in He, He1. clear Hq Hvb He.
  rewrite read_elem0 by exact He1. clear He1. cbn [obind]. fold x.
  match goal with |- context [red_loop _ _ _ _ _ _ ?a] => set (acc0 := a) end.
  assert (inw (8 * sew c) x) as Hxr by (apply elem_inw; [exact Hb|lia]).
  assert (acc0 = match o with Rwsum => wrap (16 * sew c) (sgn (8 * sew c) x) | _ => x end) as Eacc.
  { unfold acc0, wd. destruct o; try reflexivity. cbn [widening]. replace (8 * (2 * sew c)) with (16 * sew c) by lia. reflexivity. }
  assert (inw (op_width o (8 * sew c)) acc0) as Hacc.
  { rewrite Eacc. unfold op_width. destruct o; cbn [widening]; try exact Hxr.
    - apply (inw_weaken (8 * sew c)); [lia|exact Hxr].
    - replace (2 * (8 * sew c)) with (16 * sew c) by lia. apply wrap_range. lia. }
  assert (red_loop (mask_value (regs st) vm) (read_elem (vlenb c) (regs st) vs2 (sew c)) (red_op o (8 * sew c)) (Z.to_nat (vl c)) 0 (vl c) acc0
    = Some (red_spec o (8 * sew c) acc0 (active_elems (vlenb c) (regs st) vs2 (sew c) vm (vl c)))) as ->.
  { pose proof (red_loop_spec (mask_value (regs st) vm) (read_elem (vlenb c) (regs st) vs2 (sew c)) (red_op o (8 * sew c))
      (elem (vlenb c) (regs st) vs2 (sew c)) (Z.to_nat (vl c)) 0 acc0) as HR.
    replace (0 + Z.of_nat (Z.to_nat (vl c))) with (vl c) in HR by lia. rewrite HR; clear HR.
    2: { intros j Hj. apply (read_elem_ok _ (sew c) (lmul8 c) (vl c)); try assumption. }
    f_equal. rewrite red_fold; [|exact Hbits|exact Hacc|].
    - f_equal. unfold active_elems. f_equal. change (zrange_from 0 (Z.to_nat (vl c))) with (zrange (vl c)).
      apply filter_ext_range. intros j Hj. apply mask_of_ok. lia.
    - intros y Hy. apply in_map_iff in Hy. destruct Hy as (j & <- & _). apply elem_inw; [exact Hb|lia]. }
  cbn [obind]. eexists. split; [reflexivity|]. cbn [regs cfg]. split; [reflexivity|].
  destruct (submit_store0 (vlenb c) (regs st) vd wd (red_spec o (8 * sew c) acc0 (active_elems (vlenb c) (regs st) vs2 (sew c) vm (vl c)))) as (S1 & S2); [lia|].
  split; [|exact S2]. rewrite S1, <- Eacc. apply wrap_id.
  assert (8 * wd = op_width o (8 * sew c)) as -> by (unfold wd, op_width; destruct (widening o); lia).
  rewrite <- red_fold; [|exact Hbits|exact Hacc|].
  - assert (forall y, In y (active_elems (vlenb c) (regs st) vs2 (sew c) vm (vl c)) -> inw (8 * sew c) y) as Hel.
    { intros y Hy. unfold active_elems in Hy. apply in_map_iff in Hy. destruct Hy as (j & <- & _). apply elem_inw; [exact Hb|lia]. }
    clear - Hacc Hel Hs1. generalize dependent acc0. induction (active_elems _ _ _ _ _ _) as [|y l IH]; intros a Ha; cbn [fold_left]; [exact Ha|].
    apply IH; [intros z Hz; apply Hel; right; exact Hz|]. pose proof (Hel y (or_introl eq_refl)) as Hy.
    unfold op_width in *. destruct o; cbn [widening red_op] in *; try (apply wrap_range; lia);
      try (destruct (_ <? _); assumption).
    + apply inw_land_l; [lia|exact Ha].
    + apply inw_lor; [lia|exact Ha|exact Hy].
    + apply inw_lxor; [lia|exact Ha|exact Hy].
  - intros y Hy. unfold active_elems in Hy. apply in_map_iff in Hy. destruct Hy as (j & <- & _). apply elem_inw; [exact Hb|lia].
Qed.

(** Moves. *)
Lemma aligned_regs n r : In n [1; 2; 4; 8] -> 0 <= r < 32 -> r mod n = 0 -> n <= num_regs r.
Proof.
  intros Hn Hr Hm.
  assert (forallb (fun n => forallb (fun r => negb (r mod n =? 0) || (n <=? num_regs r)) (zrange 32)) [1; 2; 4; 8] = true) as T by reflexivity.
  rewrite forallb_forall in T. specialize (T n Hn). pose proof (forall_zrange _ _ T r Hr) as E. cbv beta in E. rewrite Hm in E.
  cbn [negb Z.eqb orb] in E. apply Z.leb_le. exact E.
Qed.
Lemma vmvr_spec vb vd vs2 fuel : 1 <= vb -> forall rf i n, 0 <= i -> n - i <= Z.of_nat fuel -> (vd = vs2 \/ vd + n <= vs2 \/ vs2 + n <= vd) ->
  forall a, vmvr_loop vb vd vs2 fuel rf i n a = if ((vd + i) * vb <=? a) && (a <? (vd + n) * vb) then rf (a - vd * vb + vs2 * vb) else rf a.
Proof.
  intros Hvb. induction fuel as [|f IH]; intros rf i n Hi Hf Hd a; cbn [vmvr_loop].
  - destruct (Z.leb_spec ((vd + i) * vb) a), (Z.ltb_spec a ((vd + n) * vb)); try reflexivity. nia.
  - destruct (Z.ltb_spec i n).
    + rewrite IH by lia.
      assert (forall x, submit vb rf (copy_reg vb rf (vs2 + i)) (vd + i) x =
        if ((vd + i) * vb <=? x) && (x <? (vd + i + 1) * vb) then rf (x - vd * vb + vs2 * vb) else rf x) as HS.
      { intros x. unfold submit, copy_reg. destruct (_ && _); [|reflexivity]. f_equal. ring. }
      rewrite !HS.
      destruct (Z.leb_spec ((vd + (i + 1)) * vb) a), (Z.leb_spec ((vd + i) * vb) a), (Z.ltb_spec a ((vd + n) * vb)),
        (Z.ltb_spec a ((vd + i + 1) * vb)); cbn [andb]; try reflexivity; try nia.
      destruct (Z.leb_spec ((vd + i) * vb) (a - vd * vb + vs2 * vb)), (Z.ltb_spec (a - vd * vb + vs2 * vb) ((vd + i + 1) * vb)); cbn [andb]; try reflexivity.
      destruct Hd as [Hd|Hd]; [subst; f_equal; lia|]. exfalso. nia.
    + destruct (Z.leb_spec ((vd + i) * vb) a), (Z.ltb_spec a ((vd + n) * vb)); try reflexivity. nia.
Qed.
