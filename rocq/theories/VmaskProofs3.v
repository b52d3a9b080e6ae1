(** Scans, viota, vid, reductions and moves at the instruction level. *)
From Coq Require Import ZArith Bool List Lia.
From Verif Require Import Bits Memory VelemSpec VmaskSpec VcfgModel VelemModel VelemProofs3 VelemProofs4 VmaskModel VmaskProofs1 VmaskProofs2.
Import ListNotations.
Local Open Scope Z_scope.

Definition hit (vb : Z) (rf : mem) (vs2 : Z) (vm : bool) (j : Z) : bool := mask_of vb rf vm j && vbit vb rf vs2 j.
Lemma hit_ok vb rf vs2 vm j : 0 <= j -> mask_value rf vm j && src_bit vb rf vs2 j = hit vb rf vs2 vm j.
Proof. intros Hj. unfold hit. rewrite (mask_of_ok vb), src_bit_ok by lia. reflexivity. Qed.
Lemma hits_filter vb rf vs2 vm n :
  filter (fun j => mask_value rf vm j && src_bit vb rf vs2 j) (zrange n) = hits vb rf vs2 vm n.
Proof. apply filter_ext_range. intros j Hj. apply hit_ok. lia. Qed.

Lemma cnt_le h n : 0 <= n -> 0 <= cnt h n <= n.
Proof.
  intros Hn. replace n with (Z.of_nat (Z.to_nat n)) by lia. induction (Z.to_nat n) as [|k IH]; [rewrite cnt_0; lia|].
  replace (Z.of_nat (Datatypes.S k)) with (Z.of_nat k + 1) by lia. rewrite cnt_step by lia. destruct (h (Z.of_nat k)); cbn [Z.b2z]; lia.
Qed.
Lemma hits_length vb rf vs2 vm n : 0 <= n -> Z.of_nat (length (hits vb rf vs2 vm n)) <= n.
Proof. intros Hn. exact (proj2 (cnt_le (hit vb rf vs2 vm) n Hn)). Qed.

Lemma exec_cpop_spec st xlen vs2 vm : In xlen [32; 64] -> 0 <= vl (cfg st) <= 65536 -> vstart (cfg st) = 0 ->
  exec_cpop st xlen vs2 vm = (st, Some (Z.of_nat (length (hits (vlenb (cfg st)) (regs st) vs2 vm (vl (cfg st)))))).
Proof.
  intros Hx Hv Hs. unfold exec_cpop. rewrite Hs. cbv zeta. change (negb (0 =? 0)) with false. cbv iota.
  rewrite cpop_spec by lia. rewrite cnt_0. unfold cnt. rewrite hits_filter.
  pose proof (hits_length (vlenb (cfg st)) (regs st) vs2 vm (vl (cfg st)) ltac:(lia)).
  rewrite wrap_id; [do 2 f_equal; lia|]. unfold inw. destruct Hx as [<-|[<-|[]]]; lia.
Qed.
Lemma exec_first_spec st xlen vs2 vm : In xlen [32; 64] -> 0 <= vl (cfg st) -> vstart (cfg st) = 0 ->
  exec_first st xlen vs2 vm = (st, Some (wrap xlen (hd (-1) (hits (vlenb (cfg st)) (regs st) vs2 vm (vl (cfg st)))))).
Proof.
  intros Hx Hv Hs. unfold exec_first. rewrite Hs. cbv zeta. change (negb (0 =? 0)) with false. cbv iota.
  rewrite (first_spec _ _ 0) by (try reflexivity; lia). rewrite hits_filter.
  rewrite wrap_wrap_le by (destruct Hx as [<-|[<-|[]]]; lia). reflexivity.
Qed.
Lemma hits_hd vb rf vs2 vm n i : 0 <= i < n -> hit vb rf vs2 vm i = true ->
  (forall j, 0 <= j < i -> hit vb rf vs2 vm j = false) -> hd (-1) (hits vb rf vs2 vm n) = i.
Proof.
  intros Hi Hh Hn. destruct (filter_prefix (hit vb rf vs2 vm) (i + 1) (Z.to_nat (n - (i + 1))) ltac:(lia)) as (l & El).
  replace (i + 1 + Z.of_nat (Z.to_nat (n - (i + 1)))) with n in El by lia.
  change (hits vb rf vs2 vm n) with (filter (hit vb rf vs2 vm) (zrange n)). rewrite El, filter_snoc, Hh by lia.
  assert (filter (hit vb rf vs2 vm) (zrange i) = []) as ->.
  { assert (filter (hit vb rf vs2 vm) (zrange i) = filter (fun _ => false) (zrange i)) as -> by (apply filter_ext_range; exact Hn).
    induction (zrange i); [reflexivity|exact IHl0]. }
  reflexivity.
Qed.
Lemma hits_nil vb rf vs2 vm n : (forall j, 0 <= j < n -> hit vb rf vs2 vm j = false) -> hits vb rf vs2 vm n = [].
Proof.
  intros Hn. change (hits vb rf vs2 vm n) with (filter (hit vb rf vs2 vm) (zrange n)).
  assert (filter (hit vb rf vs2 vm) (zrange n) = filter (fun _ => false) (zrange n)) as -> by (apply filter_ext_range; exact Hn).
  induction (zrange n); [reflexivity|exact IHl].
Qed.

Lemma none_hits vb rf vs2 vm i :
  none (fun j => mask_value rf vm j && src_bit vb rf vs2 j) i = match hits vb rf vs2 vm i with [] => true | _ => false end.
Proof. unfold none. rewrite hits_filter. reflexivity. Qed.

(** The written bits; vmsbf also clears masked-off bits after the first hit. *)
Definition scan_written (o : vscan) (vb : Z) (rf : mem) (vs2 : Z) (vm : bool) (vl i : Z) : Prop :=
  0 <= i < vl /\ (mask_of vb rf vm i = true \/ (o = Msbf /\ hits vb rf vs2 vm i <> [])).
Lemma exec_scan_spec st o vd vs2 vm : byte_mem (regs st) -> vstart (cfg st) = 0 -> 0 <= vl (cfg st) ->
  cfg (exec_scan st o vd vs2 vm) = set_vstart (cfg st) 0 /\
  mask_update (vlenb (cfg st)) vd (scan_written o (vlenb (cfg st)) (regs st) vs2 vm (vl (cfg st)))
    (scan_spec o (vlenb (cfg st)) (regs st) vs2 vm) (regs st) (regs (exec_scan st o vd vs2 vm)).
Proof.
  intros Hb Hs Hv. unfold exec_scan. rewrite Hs. cbv zeta. change (negb (0 =? 0)) with false. cbv iota. cbn [cfg regs].
  split; [reflexivity|].
  set (vb := vlenb (cfg st)). set (rf := regs st) in *. set (n := vl (cfg st)) in *.
  set (m := mask_value rf vm). set (s := src_bit vb rf vs2).
  assert (forall j, none (fun i => m i && s i) j = match hits vb rf vs2 vm j with [] => true | _ => false end) as HN by (intros j; apply none_hits).
  assert (forall j, 0 <= j -> m j = mask_of vb rf vm j) as Hm by (intros j Hj; apply mask_of_ok; exact Hj).
  assert (forall j, 0 <= j -> s j = vbit vb rf vs2 j) as Hsrc by (intros j Hj; apply src_bit_ok; exact Hj).
  assert (none (fun i => m i && s i) 0 = true) as H0 by reflexivity.
  apply mask_update_submit; [exact Hb| | |].
  - destruct o.
    + pose proof (sbf_byte m s (Z.to_nat n) (copy_reg vb rf vd) 0 n 0 true (byte_copy _ _ _ Hb)) as HB.
      destruct (sbf_set m s (Z.to_nat n) (copy_reg vb rf vd) 0 n 0 true) as [[b bf] l]. apply sbfc_byte. exact HB.
    + apply sif_byte, byte_copy, Hb.
    + apply sof_byte, byte_copy, Hb.
  - intros i Hi (Hin & Hw). destruct o; unfold scan_spec.
    + rewrite sbf_spec by (try assumption; lia). destruct (Z.leb_spec 0 i), (Z.ltb_spec i n); try lia. cbn [andb].
      rewrite HN, Hm, Hsrc by lia. destruct (hits vb rf vs2 vm i); cbn [andb]; [|reflexivity].
      destruct Hw as [-> |(_ & Hw)]; [reflexivity|]. exfalso. apply Hw. reflexivity.
    + rewrite <- H0. rewrite sif_spec by lia. destruct (Z.leb_spec 0 i), (Z.ltb_spec i n); try lia. cbn [andb].
      rewrite HN, Hm by lia. destruct Hw as [-> |(Hw & _)]; [reflexivity|discriminate].
    + rewrite <- H0. rewrite sof_spec by lia. destruct (Z.leb_spec 0 i), (Z.ltb_spec i n); try lia. cbn [andb].
      rewrite HN, Hm, Hsrc by lia. destruct Hw as [-> |(Hw & _)]; [reflexivity|discriminate].
  - intros i Hi Hn. destruct o.
    + rewrite sbf_spec by (try assumption; lia). rewrite bbit_copy. destruct (Z.leb_spec 0 i), (Z.ltb_spec i n); cbn [andb]; try reflexivity.
      rewrite HN, Hm, Hsrc by lia. destruct (hits vb rf vs2 vm i) eqn:Eh.
      * destruct (mask_of vb rf vm i) eqn:Em; [|reflexivity]. exfalso. apply Hn. split; [lia|left; exact Em].
      * exfalso. apply Hn. split; [lia|right; split; [reflexivity|rewrite Eh; discriminate]].
    + rewrite <- H0. rewrite sif_spec by lia. rewrite bbit_copy. destruct (Z.leb_spec 0 i), (Z.ltb_spec i n); cbn [andb]; try reflexivity.
      rewrite Hm by lia. destruct (mask_of vb rf vm i) eqn:Em; [|reflexivity]. exfalso. apply Hn. split; [lia|left; exact Em].
    + rewrite <- H0. rewrite sof_spec by lia. rewrite bbit_copy. destruct (Z.leb_spec 0 i), (Z.ltb_spec i n); cbn [andb]; try reflexivity.
      rewrite Hm by lia. destruct (mask_of vb rf vm i) eqn:Em; [|reflexivity]. exfalso. apply Hn. split; [lia|left; exact Em].
Qed.

(** viota and vid: the stateful loops are [regs_loop] with a pure body. *)
Definition pure (op : Z -> bool -> Z * Z) (m : Z -> bool) (opm : mem -> Z -> bool) (wd : Z) (kk : Z -> Z) (rf : mem) (vi : Z)
  : option (option Z * bool) :=
  Some (if m vi then Some (wrap (8 * wd) (snd (op (kk vi) (m vi && opm rf vi)))) else None, false).
Section nullary.
Context (op : Z -> bool -> Z * Z) (m : Z -> bool) (opm : mem -> Z -> bool) (wd : Z) (kk : Z -> Z).

Lemma nitems_pure fuel : forall rf buf i count vi n,
  (forall j, vi <= j < n -> fst (op (kk j) (m j && opm rf j)) = kk (j + 1)) ->
  items (pure op m opm wd kk) wd fuel rf buf i count vi n false =
    (let '(b, v, k) := nitems op m opm wd fuel rf buf i count vi n (kk vi) in Some (b, v, false)) /\
  (let '(b, v, k) := nitems op m opm wd fuel rf buf i count vi n (kk vi) in k = kk v /\ vi <= v).
Proof.
  induction fuel as [|f IH]; intros rf buf i count vi n Hk; cbn [items nitems].
  - split; [reflexivity|]. split; [reflexivity|lia].
  - destruct ((i <? count) && (vi <? n)) eqn:E; [|split; [reflexivity|split; [reflexivity|lia]]].
    apply andb_true_iff in E. destruct E as (_ & E). apply Z.ltb_lt in E.
    unfold pure at 1. cbn [obind fst snd]. rewrite orb_false_r.
    pose proof (Hk vi ltac:(lia)) as Hv. destruct (op (kk vi) (m vi && opm rf vi)) as [k' r] eqn:Eo. cbn [fst snd] in *. subst k'.
    destruct (IH rf (if m vi then store_le buf (i * wd) (Z.to_nat wd) (wrap (8 * wd) r) else buf) (i + 1) count (vi + 1) n) as (H1 & H2).
    { intros j Hj. apply Hk. lia. }
    split.
    + rewrite <- H1. destruct (m vi); reflexivity.
    + destruct (nitems _ _ _ _ _ _ _ _ _ _ _ _) as [[b v] k]. destruct H2. split; [assumption|lia].
Qed.

Lemma nregs_pure vb vd epv max_regs n (inv : mem -> Prop) fuel : forall rf reg item vi,
  inv rf -> (forall rf buf r, inv rf -> 0 <= r < max_regs -> inv (submit vb rf buf (vd + r))) -> 0 <= reg -> 0 <= vi ->
  (forall rf j, inv rf -> 0 <= j < n -> fst (op (kk j) (m j && opm rf j)) = kk (j + 1)) ->
  regs_loop (pure op m opm wd kk) vb wd vd epv max_regs n fuel rf reg item vi false =
    Some (nregs_loop op m opm vb wd vd epv max_regs n fuel rf reg item vi (kk vi), false).
Proof.
  induction fuel as [|f IH]; intros rf reg item vi Hi Hsub Hr Hv Hk; cbn [regs_loop nregs_loop]; [reflexivity|].
  destruct ((reg <? max_regs) && (vi <? n)) eqn:E; [|reflexivity].
  apply andb_true_iff in E. destruct E as (E1 & E2). apply Z.ltb_lt in E1.
  destruct (nitems_pure (Z.to_nat epv) rf (copy_reg vb rf (vd + reg)) item (Z.min epv n) vi n) as (H1 & H2).
  { intros j Hj. apply Hk; [exact Hi|lia]. }
  rewrite H1. destruct (nitems _ _ _ _ _ _ _ _ _ _ _ _) as [[b v] k]. cbn [obind]. destruct H2 as (-> & Hv').
  apply IH; [apply Hsub; [exact Hi|lia]|exact Hsub|lia|lia|exact Hk].
Qed.
End nullary.

Lemma div_group j n g epv : 1 <= epv -> j < n -> n <= g * epv -> j / epv <= g.
Proof. intros H1 H2 H3. apply Z.lt_succ_r, Z.div_lt_upper_bound; nia. Qed.
Lemma range_up vb vd x g a : 0 <= vb -> x <= g -> vd * vb <= a < (vd + x) * vb -> vd * vb <= a < (vd + g) * vb.
Proof. nia. Qed.
Lemma range_in vb vd r mr g a : 0 <= vb -> 0 <= r < mr -> mr <= g -> ~ (vd * vb <= a < (vd + g) * vb) ->
  ~ ((vd + r) * vb <= a < (vd + r + 1) * vb).
Proof. nia. Qed.
(** The result of a mask-nullary instruction whose loop is pure. *)
Lemma mask_nullary_spec st op vd vs2 vm kk :
  let c := cfg st in
  config (vlenb c) (sew c) (lmul8 c) (vl c) -> group (sew c) (lmul8 c) (sew c) vd -> vexc c = false -> 0 <= vstart c ->
  (match vs2 with Some r => r + 1 <= vd \/ vd + nregs (sew c) (lmul8 c) (sew c) <= r | None => True end) ->
  let opm i := match vs2 with Some r => vbit (vlenb c) (regs st) r i | None => true end in
  kk (vstart c) = 0 ->
  (forall j, 0 <= j < vl c -> fst (op (kk j) (mask_of (vlenb c) (regs st) vm j && opm j)) = kk (j + 1)) ->
  cfg (mask_nullary st op vd vs2 vm) = set_vstart c 0 /\
  (forall j, vstart c <= j < vl c -> mask_of (vlenb c) (regs st) vm j = true ->
     elem (vlenb c) (regs (mask_nullary st op vd vs2 vm)) vd (sew c) j = wrap (8 * sew c) (snd (op (kk j) (opm j)))) /\
  (forall a, (forall j, vstart c <= j < vl c -> mask_of (vlenb c) (regs st) vm j = true -> ~ in_elem (vlenb c) vd (sew c) j a) ->
     regs (mask_nullary st op vd vs2 vm) a = regs st a).
Proof.
  intros c HC HD Hx Hst Hdis opm Hkk0 Hkk.
  destruct (config_vb _ _ _ _ HC) as (q & Hq & Hvb).
  pose proof (epv_spec q (sew c) (proj1 HD) Hq) as (He & He1). rewrite <- Hvb in He, He1.
  pose proof (group_holds _ _ _ _ _ _ HC HD) as (Hh & Hg1). pose proof (num_regs_ge _ _ _ _ _ _ HC HD) as Hnr.
  pose proof (sew_ge1 _ _ _ _ HC) as Hwd1. pose proof (vl_bits _ _ _ _ HC) as (Hvl & _).
  unfold mask_nullary. fold c. rewrite Hx.
  set (wd := sew c) in *. set (vb := vlenb c) in *. set (epv := vb / wd) in *. set (n := vl c) in *. set (rf0 := regs st) in *.
  set (mr := (n + epv - 1) / epv). set (g := nregs wd (lmul8 c) wd) in *.
  assert (n <= g * epv) as Hng by nia.
  assert (mr <= g) as Hmr. { unfold mr. apply Z.lt_succ_r. apply Z.div_lt_upper_bound; nia. }
  cbv zeta. destruct (Z.ltb_spec (num_regs vd) mr); [lia|]. cbn [cfg regs]. split; [reflexivity|].
  assert (n <= mr * epv) as Hn1.
  { unfold mr. pose proof (Z.div_mod (n + epv - 1) epv ltac:(lia)). pose proof (Z.mod_pos_bound (n + epv - 1) epv ltac:(lia)). nia. }
  assert ((mr - 1) * epv < n \/ n <= 0) as Hn2.
  { destruct (Z.leb_spec n 0); [right; lia|left]. unfold mr. pose proof (Z.mul_div_le (n + epv - 1) epv ltac:(lia)). nia. }
  assert (0 <= vb) as Hvb0 by lia. set (vst := vstart c) in *.
  set (opm' := fun rf i => match vs2 with Some r => src_bit vb rf r i | None => true end).
  clearbody mr epv g. clear Hvb Hq Hnr HC HD Hx Hh. clearbody vst wd vb n. clear c.
  set (m := mask_value rf0 vm).
  set (inv := fun rf : mem => forall a, ~ (vd * vb <= a < (vd + g) * vb) -> rf a = rf0 a).
  assert (forall rf j, inv rf -> 0 <= j < n -> opm' rf j = opm j) as Hopm.
  { intros rf j Hi Hj. unfold opm', opm. destruct vs2 as [r|]; [|reflexivity]. rewrite src_bit_ok by lia. unfold vbit. f_equal. apply Hi.
    assert (0 <= j / 8 < vb) by (split; [apply Z.div_pos; lia|apply Z.div_lt_upper_bound; lia]). destruct Hdis; nia. }
  assert (forall j, 0 <= j -> m j = mask_of vb rf0 vm j) as Hm by (intros j Hj; apply mask_of_ok; exact Hj).
  pose proof (nregs_pure op m opm' wd kk vb vd epv mr n inv (Z.to_nat mr) rf0 (vst / epv) (vst mod epv) (vst)) as HP.
  rewrite Hkk0 in HP.
  assert (exists rf' sat', regs_loop (pure op m opm' wd kk) vb wd vd epv mr n (Z.to_nat mr) rf0 (vst / epv) (vst mod epv) (vst) false
            = Some (rf', sat') /\
     (forall a, rf' a = upto (pure op m opm' wd kk) vb wd vd rf0 (vst) (Z.max (vst) n) a)) as (rf' & sat' & E & Hrf').
  { destruct (loop_spec (pure op m opm' wd kk) vb wd vd epv n rf0 (vst) Hwd1 He1 He Hst) with (s0 := false) (max_regs := mr)
      as (rf' & sat' & E & Hrf' & _); [intros j Hj; discriminate| |exact Hn1|exact Hn2|].
    - intros rf j Hj Hag. unfold pure. rewrite (Hopm rf), (Hopm rf0); [reflexivity| | | |]; try lia; [intros a Ha; reflexivity|].
      intros a Ha. apply Hag. intros Hc. apply Ha.
      apply (range_up vb vd (j / epv)); [lia| |exact Hc]. apply (div_group _ n); lia.
    - eauto. }
  rewrite HP in E; clear HP; [|intros a Ha; reflexivity| |apply Z.div_pos; lia|lia|].
  2: { intros rf buf r Hi Hr a Ha. rewrite submit_other by (apply (range_in vb vd r mr g); (exact Ha || lia)). apply Hi. exact Ha. }
  2: { intros rf j Hi Hj. rewrite Hm, (Hopm rf) by (assumption || lia). apply Hkk. lia. }
  injection E as E Esat. rewrite E.
  split.
  - intros j Hj Hmj. unfold elem.
    set (v := snd (op (kk j) (opm j))).
    rewrite (load_le_ext rf' (store_le rf0 (vd * vb + j * wd) (Z.to_nat wd) (wrap (8 * wd) v))).
    + rewrite load_store_same. rewrite Z2Nat.id by lia. apply wrap_wrap; lia.
    + rewrite Z2Nat.id by lia. intros a Ha'. rewrite Hrf'. rewrite store_le_same by (rewrite Z2Nat.id; lia).
      unfold upto. cbv zeta. rewrite (idx_spec vb wd vd a j) by lia.
      destruct (Z.leb_spec (vst) j), (Z.ltb_spec j (Z.max (vst) n)); try lia. cbn [andb].
      unfold F, pure. rewrite Hm, Hmj, (Hopm rf0) by (try lia; intros ? ?; reflexivity). cbn [andb]. reflexivity.
  - intros a Hna. rewrite Hrf'. unfold upto. cbv zeta.
    destruct (Z.leb_spec (vst) (idx vb wd vd a)), (Z.ltb_spec (idx vb wd vd a) (Z.max (vst) n)); cbn [andb]; try reflexivity.
    set (j := idx vb wd vd a) in *. unfold F, pure. rewrite Hm by lia.
    destruct (mask_of vb rf0 vm j) eqn:Em; [|reflexivity].
    exfalso. apply (Hna j); [lia|exact Em|]. apply (idx_bounds vb wd vd a Hwd1).
Qed.
