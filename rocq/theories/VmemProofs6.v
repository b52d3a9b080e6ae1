(** Mask and whole-register loads and stores, access faults, round trips. *)
From Coq Require Import ZArith Bool List Lia.
From Verif Require Import Bits Memory VelemSpec VmaskSpec VpermSpec VmemSpec VcfgModel VelemModel VmemModel
  VelemProofs4 VmaskProofs1 VpermProofs VmemProofs1 VmemProofs2 VmemProofs3 VmemProofs4 VmemProofs5.
Import ListNotations.
Local Open Scope Z_scope.

Lemma num_regs_pos r : 1 <= num_regs r.
Proof.
  unfold num_regs. pose proof (Z.mod_pos_bound r 8 ltac:(lia)) as B. set (x := r mod 8) in *. clearbody x.
  assert (x = 0 \/ x = 1 \/ x = 2 \/ x = 3 \/ x = 4 \/ x = 5 \/ x = 6 \/ x = 7) as H by lia.
  destruct H as [->|[->|[->|[->|[->|[->|[->| ->]]]]]]]; vm_compute; discriminate.
Qed.
Lemma mask_bytes_eq vl : 0 <= vl -> Z.quot (vl + 7) 8 = mask_bytes vl /\ 0 <= mask_bytes vl /\ (vl = 0 -> mask_bytes vl = 0).
Proof.
  intros H. unfold mask_bytes. rewrite Z.quot_div_nonneg by lia. split; [reflexivity|]. split; [apply Z.div_pos; lia|]. intros ->. reflexivity.
Qed.
Lemma mask_bytes_le vl vb : vl <= 8 * vb -> mask_bytes vl <= vb.
Proof. intros H. unfold mask_bytes. apply Z.lt_succ_r. apply Z.div_lt_upper_bound; lia. Qed.

Definition bspace (xlen vstart n base : Z) : Prop := xlen = 64 \/ (xlen = 32 /\ forall i, vstart <= i < n -> 0 <= base + i < 2 ^ xlen).
Lemma baddr_ok xlen vstart n base i : bspace xlen vstart n base -> vstart <= i < n -> wrap 64 (base + i) = (base + i) mod 2 ^ xlen.
Proof.
  intros [->|(-> & H)] B; [reflexivity|]. specialize (H i B). unfold wrap. rewrite !Z.mod_small; [reflexivity|exact H|].
  assert (2 ^ 32 < 2 ^ 64) by reflexivity. lia.
Qed.

Lemma set_vstart_finish st : finish st (Some (regs st)) = {| regs := regs st; cfg := set_vstart (cfg st) 0 |}.
Proof. reflexivity. Qed.

Lemma vlm_ok xlen st m maxpa base vd : let c := cfg st in let n := mask_bytes (vl c) in byte_mem m ->
  config (vlenb c) (sew c) (lmul8 c) (vl c) -> vstart c = 0 \/ n <= vstart c -> bspace xlen (vstart c) n base ->
  (forall i, vstart c <= i < n -> (base + i) mod 2 ^ xlen <= maxpa) ->
  exists rf', vlm st m maxpa base vd = Some {| o_vs := {| regs := rf'; cfg := set_vstart c 0 |}; o_mem := m; o_trap := None |} /\
    load_spec (vlenb c) 1 1 1 vd (fun i => vstart c <= i < n) (fun i _ => (base + i) mod 2 ^ xlen) m (regs st) rf'.
Proof.
  intros c n Hbm HC Hs Hsp Hre. destruct (w_facts _ _ _ _ 1 HC (or_introl eq_refl)) as (_ & Hvb & He & Hv).
  destruct (vl_bits _ _ _ _ HC) as (Hv8 & Hvb8). destruct (mask_bytes_eq (vl c) Hv) as (E1 & E2 & _).
  pose proof (mask_bytes_le (vl c) (vlenb c) ltac:(lia)) as Hnv. fold n in E1, E2, Hnv.
  assert (n <= vstart c -> exists rf', Some {| o_vs := finish st (Some (regs st)); o_mem := m; o_trap := None |} =
      Some {| o_vs := {| regs := rf'; cfg := set_vstart c 0 |}; o_mem := m; o_trap := None |} /\
    load_spec (vlenb c) 1 1 1 vd (fun i => vstart c <= i < n) (fun i _ => (base + i) mod 2 ^ xlen) m (regs st) rf') as HQ.
  { intros H. exists (regs st). split; [reflexivity|]. split; [intros i f _ Hi; lia|reflexivity]. }
  unfold vlm. fold c. cbv zeta. rewrite E1. destruct (Z.leb_spec (vlenb c) (vstart c)) as [|Hlt]; [apply HQ; lia|].
  destruct (Z.leb_spec (n - vstart c) 0) as [|Hn]; [apply HQ; lia|]. destruct Hs as [Hs|Hs]; [|lia]. rewrite Hs in *. rewrite Z.sub_0_r in *.
  rewrite (do_load_ok st m maxpa 1 n _ _ _ (fun k => (base + k) mod 2 ^ xlen)); [|lia| |].
  2: { intros k Hk. rewrite written_in, Z.add_0_r by exact Hk. split; [f_equal; apply (baddr_ok xlen 0 n); assumption|apply Hre; exact Hk]. }
  2: { intros k Hk. rewrite written_in by exact Hk. eexists; reflexivity. }
  match goal with |- context [write_back _ _ _ _ _ _ ?mk ?v _] =>
    destruct (write_back_ok (vlenb c) 1 vd 0 n mk v (fun k => load_le m ((base + k) mod 2 ^ xlen) (Z.to_nat 1)) (regs st)) as (rf' & E & U1 & U2);
      try assumption; try lia end.
  { pose proof (num_regs_pos vd). rewrite Z.div_1_r. nia. }
  { intros k Hk Hb. rewrite Z.sub_0_r in Hk. unfold getb, getz. rewrite !written_in by exact Hk. rewrite Z.add_0_r.
    rewrite (baddr_ok xlen 0 n) by assumption. split; [reflexivity|apply load_inw; [exact Hbm|lia]]. }
  rewrite Z.sub_0_r in E. rewrite E. cbn [obind]. exists rf'. split; [reflexivity|].
  rewrite Z.div_1_r in U1, U2. split.
  - intros i f Hf Hi. replace (vd + f * 1) with vd by lia. destruct (wb_aligned (vlenb c) 0 n i ltac:(lia) eq_refl ltac:(lia)) as (A1 & A2).
    rewrite U1; [rewrite A2, Z.sub_0_r by lia; reflexivity|]. split; [apply A1; exact Hi|]. rewrite A2, Z.sub_0_r by lia. unfold getb. rewrite written_in by exact Hi. reflexivity.
  - intros b Hb. apply U2. intros j (Hj & _) Hin. destruct (wb_aligned (vlenb c) 0 n j ltac:(lia) eq_refl ltac:(lia)) as (A1 & A2).
    apply A1 in Hj. apply (Hb j 0); [lia|exact Hj|]. rewrite Z.add_0_r. exact Hin.
Qed.

Lemma filter_tail s n : 0 <= s <= n -> filter (fun i => s <=? i) (zrange n) = zrange_from s (Z.to_nat (n - s)).
Proof.
  intros H. unfold zrange. replace (Z.to_nat n) with (Z.to_nat s + Z.to_nat (n - s))%nat by lia.
  rewrite zrange_from_app, filter_app, Z2Nat.id, Z.add_0_l by lia.
  assert (forall l, (forall x, In x l -> (s <=? x) = false) -> filter (fun i => s <=? i) l = []) as A.
  { induction l as [|x l IH]; intros K; [reflexivity|]. cbn [filter]. rewrite K by (left; reflexivity). apply IH. intros y Hy. apply K. right. exact Hy. }
  assert (forall l, (forall x, In x l -> (s <=? x) = true) -> filter (fun i => s <=? i) l = l) as B.
  { induction l as [|x l IH]; intros K; [reflexivity|]. cbn [filter]. rewrite K by (left; reflexivity). f_equal. apply IH. intros y Hy. apply K. right. exact Hy. }
  rewrite A, B; [reflexivity| |]; intros x Hx; apply zrange_from_in in Hx; [apply Z.leb_le|apply Z.leb_gt]; lia.
Qed.

Lemma vsm_ok xlen st m maxpa base vs3 : let c := cfg st in let n := mask_bytes (vl c) in
  config (vlenb c) (sew c) (lmul8 c) (vl c) -> 0 <= vstart c -> bspace xlen (vstart c) n base ->
  (forall i, vstart c <= i < n -> (base + i) mod 2 ^ xlen <= maxpa) ->
  exists m', vsm st m maxpa base vs3 = Some {| o_vs := {| regs := regs st; cfg := set_vstart c 0 |}; o_mem := m'; o_trap := None |} /\
    store_spec (vlenb c) 1 1 1 vs3 n (fun i => vstart c <=? i) (fun i _ => (base + i) mod 2 ^ xlen) (regs st) m m'.
Proof.
  intros c n HC Hs Hsp Hre. destruct (w_facts _ _ _ _ 1 HC (or_introl eq_refl)) as (_ & Hvb & He & Hv).
  destruct (vl_bits _ _ _ _ HC) as (Hv8 & Hvb8). destruct (mask_bytes_eq (vl c) Hv) as (E1 & E2 & _).
  pose proof (mask_bytes_le (vl c) (vlenb c) ltac:(lia)) as Hnv. fold n in E1, E2, Hnv.
  assert (n <= vstart c -> exists m', Some {| o_vs := finish st (Some (regs st)); o_mem := m; o_trap := None |} =
      Some {| o_vs := {| regs := regs st; cfg := set_vstart c 0 |}; o_mem := m'; o_trap := None |} /\
    store_spec (vlenb c) 1 1 1 vs3 n (fun i => vstart c <=? i) (fun i _ => (base + i) mod 2 ^ xlen) (regs st) m m') as HQ.
  { intros H. exists m. split; [reflexivity|]. intros x. unfold stores.
    assert (filter (fun i => vstart c <=? i) (zrange n) = []) as ->; [|reflexivity].
    destruct (filter _ _) as [|y l] eqn:E; [reflexivity|]. assert (In y (filter (fun i => vstart c <=? i) (zrange n))) as Hy by (rewrite E; left; reflexivity).
    apply filter_In in Hy. destruct Hy as (Hy & Hy2). apply zrange_in in Hy. apply Z.leb_le in Hy2. lia. }
  unfold vsm. fold c. cbv zeta. rewrite E1. destruct (Z.leb_spec (vlenb c) (vstart c)) as [|Hlt]; [apply HQ; lia|].
  destruct (Z.leb_spec (n - vstart c) 0) as [|Hn]; [apply HQ; lia|].
  assert (forall k, 0 <= k < n - vstart c -> read_elem (vlenb c) (regs st) vs3 1 (k + vstart c) = Some (elem (vlenb c) (regs st) vs3 1 (k + vstart c))) as HR.
  { intros k Hk. apply (read_elem_gen _ _ _ _ _ _ _ _ HC (or_introl eq_refl)). pose proof (num_regs_pos vs3). rewrite Z.div_1_r. nia. }
  rewrite filled_ok by (intros k Hk; rewrite written_in by exact Hk; eexists; apply HR; exact Hk). cbn [negb].
  rewrite (do_store_ok st m maxpa 1 (n - vstart c) _ _ _ (fun k => (base + (vstart c + k)) mod 2 ^ xlen) (fun k => elem (vlenb c) (regs st) vs3 1 (vstart c + k))).
  - eexists. split; [reflexivity|]. intros x. unfold stores. rewrite filter_tail by lia. unfold zrange at 1.
    assert (forall (h : Z -> list (Z * Z)) k, flat_map h (zrange_from (vstart c) k) = flat_map (fun f => h (vstart c + f)) (zrange_from 0 k)) as HS
      by (intros h k; rewrite <- flat_map_shift; rewrite Z.add_0_r; reflexivity).
    rewrite HS.
    match goal with |- store_list _ ?l1 _ _ = store_list _ ?l2 _ _ => assert (l1 = l2) as ->; [|reflexivity] end.
    apply flat_map_ext_in. intros j Hj. apply zrange_from_in in Hj. unfold getb. rewrite written_in by lia.
    change (zrange 1) with [0]. cbn [map]. rewrite Z.mul_0_l, Z.add_0_r. reflexivity.
  - lia.
  - intros k Hk. rewrite written_in by exact Hk. rewrite (Z.add_comm k). rewrite (baddr_ok xlen (vstart c) n) by (try assumption; lia).
    split; [reflexivity|apply Hre; lia].
  - intros k Hk. rewrite written_in by exact Hk. eexists; reflexivity.
  - intros k Hk _. rewrite written_in by exact Hk. rewrite (Z.add_comm (vstart c)). apply HR. exact Hk.
Qed.

(** Whole registers, byte by byte. *)
Lemma elem_byte vb rf r w i j : byte_mem rf -> 0 <= j < w -> rf (r * vb + i * w + j) = elem vb rf r w i / 2 ^ (8 * j) mod 256.
Proof.
  intros Hb Hj. unfold elem. set (a := r * vb + i * w). apply Z.bits_inj'. intros n Hn.
  assert (0 <= rf (a + j) < 2 ^ 8) as R by (apply Hb). change 256 with (2 ^ 8).
  destruct (Z.ltb_spec n 8).
  - rewrite Z.mod_pow2_bits_low by lia. rewrite Z.div_pow2_bits by lia. rewrite load_le_bit; [|exact Hb|rewrite Z2Nat.id; lia].
    replace (n + 8 * j) with (n + j * 8) by ring. rewrite Z.div_add, Z.mod_add by lia. rewrite Z.div_small, Z.mod_small by lia. do 2 f_equal.
  - rewrite Z.mod_pow2_bits_high by lia. destruct (Z.eq_dec (rf (a + j)) 0) as [->|]; [apply Z.bits_0|].
    apply Z.bits_above_log2; [lia|]. apply Z.log2_lt_pow2; [lia|]. apply Z.lt_le_trans with (2 ^ 8); [lia|apply Z.pow_le_mono_r; lia].
Qed.
Lemma load_byte m a w j : byte_mem m -> 0 <= j < w -> m (a + j) = load_le m a (Z.to_nat w) / 2 ^ (8 * j) mod 256.
Proof. intros Hb Hj. pose proof (elem_byte 1 m a w 0 j Hb Hj) as H. unfold elem in H. rewrite Z.mul_1_r, Z.mul_0_l, Z.add_0_r in H. exact H. Qed.

Lemma wb_items_bytes vb w r nm mk v fuel i ldi rf rf' : wb_items vb w r nm mk v fuel i ldi rf = Some rf' -> byte_mem rf -> byte_mem rf'.
Proof.
  revert i rf. induction fuel as [|f IH]; intros i rf; cbn [wb_items].
  - intros E. injection E as <-. trivial.
  - destruct (nm <=? ldi + i); [discriminate|]. destruct (getb mk (ldi + i)); [|apply IH].
    destruct (v (ldi + i)) as [x|]; cbn [obind]; [|discriminate]. intros E H. apply (IH _ _ E). apply byte_mem_store. exact H.
Qed.
Lemma wb_regs_bytes vb w vd epv mr nm mk v fuel reg item vc ldi rf rf' :
  wb_regs vb w vd epv mr nm mk v fuel reg item vc ldi rf = Some rf' -> byte_mem rf -> byte_mem rf'.
Proof.
  revert reg item vc ldi rf. induction fuel as [|f IH]; intros reg item vc ldi rf; cbn [wb_regs].
  - intros E. injection E as <-. trivial.
  - destruct (_ && _); [|intros E; injection E as <-; trivial].
    destruct (wb_items _ _ _ _ _ _ _ _ _ _) as [rf1|] eqn:E1; cbn [obind]; [|discriminate].
    intros E H. apply (IH _ _ _ _ _ E). apply (wb_items_bytes _ _ _ _ _ _ _ _ _ _ _ E1). exact H.
Qed.
Lemma write_back_bytes vb w vd start vl nm mk v rf rf' : write_back vb w vd start vl nm mk v rf = Some (Some rf') -> byte_mem rf -> byte_mem rf'.
Proof.
  unfold write_back. cbv zeta. destruct (_ <? _); [discriminate|]. destruct (negb _); [discriminate|].
  destruct (wb_regs _ _ _ _ _ _ _ _ _ _ _ _ _ _) as [rf1|] eqn:E1; cbn [obind]; [|discriminate].
  intros E H. injection E as <-. apply (wb_regs_bytes _ _ _ _ _ _ _ _ _ _ _ _ _ _ _ E1). exact H.
Qed.

Lemma vl_register_ok st m maxpa nr w base vd : let c := cfg st in byte_mem m -> byte_mem (regs st) ->
  config (vlenb c) (sew c) (lmul8 c) (vl c) -> In nr [1; 2; 4; 8] -> In w [1; 2; 4; 8] -> 0 <= vd -> vd + nr <= 32 -> vd mod nr = 0 ->
  0 <= base -> base + nr * vlenb c <= 2 ^ 64 -> base + nr * vlenb c <= maxpa + 1 ->
  exists rf', vl_register st m maxpa nr w base vd = Some {| o_vs := {| regs := rf'; cfg := set_vstart c 0 |}; o_mem := m; o_trap := None |} /\
    (forall k, 0 <= k < nr * vlenb c -> rf' (vd * vlenb c + k) = m (base + k)) /\
    (forall b, ~ vd * vlenb c <= b < (vd + nr) * vlenb c -> rf' b = regs st b).
Proof.
  intros c Hbm Hbr HC Hnr Hww Hvd Hvd2 Hmod Hb0 Hb64 Hmx.
  destruct (w_facts _ _ _ _ w HC Hww) as (Hw & Hvb & He & Hv).
  assert (nr <= num_regs vd) as Hnum.
  { assert (forallb (fun g => forallb (fun r => negb (r mod g =? 0) || (g <=? num_regs r)) (zrange 32)) [1; 2; 4; 8] = true) as T by reflexivity.
    rewrite forallb_forall in T. specialize (T nr Hnr). rewrite forallb_forall in T.
    assert (1 <= nr) by (clear - Hnr; destruct Hnr as [<-|[<-|[<-|[<-|[]]]]]; lia).
    specialize (T vd ltac:(apply zrange_in; lia)). rewrite Hmod in T. cbn [Z.eqb negb orb] in T. apply Z.leb_le. exact T. }
  assert (1 <= nr) as Hnr1 by (clear - Hnr; destruct Hnr as [<-|[<-|[<-|[<-|[]]]]]; lia).
  unfold vl_register. fold c. cbv zeta. set (e := vlenb c / w) in *.
  assert (Z.quot (vlenb c * nr) w = nr * e) as ->.
  { rewrite Hvb. replace (e * w * nr) with (nr * e * w) by ring. apply Z.quot_mul. lia. }
  set (n := nr * e).
  assert (n * w = nr * vlenb c) as Hnw by (rewrite Hvb; unfold n; ring). rewrite <- Hnw in *. clearbody e.
  assert (forall k, 0 <= k < n -> wrap 64 (base + k * w) = base + k * w /\ base + k * w <= maxpa) as HW.
  { intros k Hk. assert (0 <= k * w /\ k * w + w <= n * w) by (clear - Hk Hw; clearbody n; nia). split; [apply wrap_id; unfold inw|]; lia. }
  rewrite (do_load_ok st m maxpa w n _ _ _ (fun k => base + k * w)); [|unfold n; nia| |].
  2: { intros k Hk. rewrite written_in by exact Hk. destruct (HW k Hk) as (-> & A). split; [reflexivity|exact A]. }
  2: { intros k Hk. rewrite written_in by exact Hk. eexists; reflexivity. }
  match goal with |- context [write_back _ _ _ _ _ _ ?mk ?v _] =>
    destruct (write_back_ok (vlenb c) w vd 0 n mk v (fun k => load_le m (base + k * w) (Z.to_nat w)) (regs st)) as (rf' & E & U1 & U2) end.
  { exact Hw. }
  { rewrite Hvb, Z.div_mul by lia. exact He. }
  { rewrite Hvb, Z.div_mul by lia. reflexivity. }
  { unfold n. nia. }
  { rewrite Hvb, Z.div_mul by lia. unfold n. nia. }
  { intros k Hk _. rewrite Z.sub_0_r in Hk. unfold getb, getz. rewrite !written_in by exact Hk. rewrite (proj1 (HW k Hk)).
    split; [reflexivity|apply load_inw; assumption]. }
  rewrite Z.sub_0_r in E. rewrite E. cbn [obind]. exists rf'. split; [reflexivity|].
  replace (vlenb c / w) with e in U1, U2 by (rewrite Hvb, Z.div_mul by lia; reflexivity).
  assert (forall j, 0 <= j < n -> wb_hit e 0 n j /\ wb_src e 0 j = j) as HH.
  { intros j Hj. destruct (wb_aligned e 0 n j He) as (A1 & A2); [apply Z.mod_0_l; lia|lia|]. split; [apply A1; exact Hj|rewrite A2; lia]. }
  assert (forall i, 0 <= i < n -> elem (vlenb c) rf' vd w i = load_le m (base + i * w) (Z.to_nat w)) as HE.
  { intros i Hi. destruct (HH i Hi) as (A & B). rewrite U1; rewrite ?B; [reflexivity|]. split; [exact A|]. unfold getb. rewrite written_in by exact Hi. reflexivity. }
  pose proof (write_back_bytes _ _ _ _ _ _ _ _ _ _ E Hbr) as Hbr'. split.
  - intros k Hk. pose proof (seg_index w n k Hw Hk) as (A & B). pose proof (Z.div_mod k w ltac:(lia)) as D.
    set (i := k / w) in *. set (j := k mod w) in *. clearbody i j. subst k.
    replace (vd * vlenb c + (w * i + j)) with (vd * vlenb c + i * w + j) by ring. rewrite (elem_byte _ _ _ _ _ _ Hbr' B), HE by exact A.
    replace (base + (w * i + j)) with (base + i * w + j) by ring. symmetry. apply load_byte; assumption.
  - intros b Hb. apply U2. intros j ((Hj & _) & _) Hin. unfold in_elem in Hin. apply Hb. clear - Hin Hj Hnw Hw. nia.
Qed.

Lemma store_list_other w l m x : (forall av, In av l -> ~ fst av <= x < fst av + w) -> 0 <= w -> store_list w l m x = m x.
Proof.
  unfold store_list. revert m. induction l as [|a l IH]; intros m H Hw; [reflexivity|]. cbn [fold_left].
  rewrite IH; [|intros av Hav; apply H; right; exact Hav|exact Hw]. apply store_le_other. rewrite Z2Nat.id by lia. apply H. left. reflexivity.
Qed.
(** Pairwise disjoint stores: the value stored can be read back. *)
Lemma store_list_read w l m a v : 0 <= w -> In (a, v) l -> (forall a' v', In (a', v') l -> (a', v') = (a, v) \/ a' + w <= a \/ a + w <= a') ->
  load_le (store_list w l m) a (Z.to_nat w) = v mod 2 ^ (8 * w).
Proof.
  intros Hw. assert (forall l m, (forall a' v', In (a', v') l -> (a', v') = (a, v) \/ a' + w <= a \/ a + w <= a') ->
    In (a, v) l \/ load_le m a (Z.to_nat w) = v mod 2 ^ (8 * w) -> load_le (store_list w l m) a (Z.to_nat w) = v mod 2 ^ (8 * w)) as G.
  { clear m. clear l. induction l as [|[a0 v0] l IH]; intros m D [H|H]; [destruct H|exact H| |]; unfold store_list; cbn [fold_left fst snd]; apply IH.
    - intros a' v' K. apply D. right. exact K.
    - destruct H as [H|H]; [|left; exact H]. right. injection H as -> ->. rewrite load_store_same, Z2Nat.id by lia. reflexivity.
    - intros a' v' K. apply D. right. exact K.
    - right. destruct (D a0 v0 (or_introl eq_refl)) as [K|K].
      + injection K as -> ->. rewrite load_store_same, Z2Nat.id by lia. reflexivity.
      + rewrite load_store_other; [exact H|]. rewrite !Z2Nat.id by lia. lia. }
  intros H D. apply G; [exact D|left; exact H].
Qed.
Lemma store_list_bytes w l m : byte_mem m -> byte_mem (store_list w l m).
Proof. unfold store_list. revert m. induction l as [|a l IH]; intros m H; [exact H|]. cbn [fold_left]. apply IH. apply byte_mem_store. exact H. Qed.
Lemma mod8 w x : 0 <= x < 2 ^ (8 * w) -> x mod 2 ^ (8 * w) = x.
Proof. intros H. apply Z.mod_small. exact H. Qed.

Lemma vs_register_ok st m maxpa nr base vs3 : let c := cfg st in byte_mem m -> byte_mem (regs st) ->
  config (vlenb c) (sew c) (lmul8 c) (vl c) -> In nr [1; 2; 4; 8] -> 0 <= vs3 -> vs3 + nr <= 32 -> vs3 mod nr = 0 ->
  0 <= base -> base + nr * vlenb c <= 2 ^ 64 -> base + nr * vlenb c <= maxpa + 1 ->
  exists m', vs_register st m maxpa nr base vs3 = Some {| o_vs := {| regs := regs st; cfg := set_vstart c 0 |}; o_mem := m'; o_trap := None |} /\
    (forall k, 0 <= k < nr * vlenb c -> m' (base + k) = regs st (vs3 * vlenb c + k)) /\
    (forall b, ~ base <= b < base + nr * vlenb c -> m' b = m b).
Proof.
  intros c Hbm Hbr HC Hnr Hvd Hvd2 Hmod Hb0 Hb64 Hmx.
  assert (In 8 [1; 2; 4; 8]) as Hw8 by (right; right; right; left; reflexivity).
  destruct (w_facts _ _ _ _ 8 HC Hw8) as (_ & Hvb & He & Hv).
  assert (nr <= num_regs vs3) as Hnum.
  { assert (forallb (fun g => forallb (fun r => negb (r mod g =? 0) || (g <=? num_regs r)) (zrange 32)) [1; 2; 4; 8] = true) as T by reflexivity.
    rewrite forallb_forall in T. specialize (T nr Hnr). rewrite forallb_forall in T.
    assert (1 <= nr) by (clear - Hnr; destruct Hnr as [<-|[<-|[<-|[<-|[]]]]]; lia).
    specialize (T vs3 ltac:(apply zrange_in; lia)). rewrite Hmod in T. cbn [Z.eqb negb orb] in T. apply Z.leb_le. exact T. }
  assert (1 <= nr) as Hnr1 by (clear - Hnr; destruct Hnr as [<-|[<-|[<-|[<-|[]]]]]; lia).
  unfold vs_register. fold c. cbv zeta.
  assert (forall k, 0 <= k < nr * (vlenb c / 8) -> read_elem (vlenb c) (regs st) vs3 8 k = Some (elem (vlenb c) (regs st) vs3 8 k)) as HR.
  { intros k Hk. apply (read_elem_gen _ _ _ _ _ _ _ _ HC Hw8). set (e := vlenb c / 8) in *. clearbody e. nia. }
  set (e := vlenb c / 8) in *.
  assert (Z.quot (vlenb c * nr) 8 = nr * e) as ->.
  { rewrite Hvb. replace (e * 8 * nr) with (nr * e * 8) by ring. apply Z.quot_mul. lia. }
  set (n := nr * e) in *.
  assert (n * 8 = nr * vlenb c) as Hnw by (rewrite Hvb; unfold n; ring). rewrite <- Hnw in *. clearbody e.
  assert (forall k, 0 <= k < n -> wrap 64 (base + k * 8) = base + k * 8 /\ base + k * 8 <= maxpa) as HW.
  { intros k Hk. split; [apply wrap_id; unfold inw|]; lia. }
  rewrite filled_ok by (intros k Hk; rewrite written_in by exact Hk; eexists; apply HR; exact Hk). cbn [negb].
  rewrite (do_store_ok st m maxpa 8 n _ _ _ (fun k => base + k * 8) (fun k => elem (vlenb c) (regs st) vs3 8 k)).
  2: unfold n; nia.
  2: { intros k Hk. rewrite written_in by exact Hk. destruct (HW k Hk) as (-> & A). split; [reflexivity|exact A]. }
  2: { intros k Hk. rewrite written_in by exact Hk. eexists; reflexivity. }
  2: { intros k Hk _. rewrite written_in by exact Hk. apply HR. exact Hk. }
  match goal with |- context [store_list 8 ?l m] => set (L := l) end.
  assert (forall a v, In (a, v) L <-> exists k, 0 <= k < n /\ a = base + k * 8 /\ v = elem (vlenb c) (regs st) vs3 8 k) as HL.
  { intros a v. unfold L. rewrite in_flat_map. split.
    - intros (k & Hk & H). apply zrange_in in Hk. unfold getb in H. rewrite written_in in H by exact Hk. destruct H as [H|[]]. injection H as <- <-. exists k. auto.
    - intros (k & Hk & -> & ->). exists k. split; [apply zrange_in; exact Hk|]. unfold getb. rewrite written_in by exact Hk. left. reflexivity. }
  exists (store_list 8 L m). split; [reflexivity|]. split.
  - intros k Hk. pose proof (seg_index 8 n k ltac:(lia) Hk) as (A & B). pose proof (Z.div_mod k 8 ltac:(lia)) as D.
    set (i := k / 8) in *. set (j := k mod 8) in *. clearbody i j. subst k.
    replace (base + (8 * i + j)) with (base + i * 8 + j) by ring. rewrite (load_byte _ _ 8 j (store_list_bytes 8 L m Hbm) B).
    rewrite (store_list_read 8 L m (base + i * 8) (elem (vlenb c) (regs st) vs3 8 i)); [|lia|apply HL; exists i; auto|].
    2: { intros a' v' H. apply HL in H. destruct H as (k & Hk2 & -> & ->). destruct (Z.eq_dec k i) as [->|]; [left; reflexivity|right; lia]. }
    rewrite mod8 by (apply load_inw; [exact Hbr|lia]).
    replace (vs3 * vlenb c + (8 * i + j)) with (vs3 * vlenb c + i * 8 + j) by ring. symmetry. apply elem_byte; assumption.
  - intros b Hb. apply store_list_other; [|lia]. intros [a v] H. apply HL in H. destruct H as (k & Hk & -> & _). cbn [fst]. lia.
Qed.
