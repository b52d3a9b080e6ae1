(** Whole stores. *)
From Coq Require Import ZArith Bool List Lia.
From Verif Require Import Bits Memory VelemSpec VmaskSpec VpermSpec VmemSpec VcfgModel VelemModel VmemModel
  VelemProofs4 VmaskProofs1 VpermProofs VmemProofs1 VmemProofs2 VmemProofs3 VmemProofs4.
Import ListNotations.
Local Open Scope Z_scope.

Lemma scatter_ok w a mk d dv fuel k m : (forall j, k <= j < k + Z.of_nat fuel -> getb mk j = true -> d j = Some (dv j)) ->
  scatter w fuel k a mk d m =
  Some (store_list w (flat_map (fun j => if getb mk j then [(getz a j, dv j)] else []) (zrange_from k fuel)) m).
Proof.
  revert k m. induction fuel as [|f IH]; intros k m H; [reflexivity|].
  cbn [scatter zrange_from flat_map]. destruct (getb mk k) eqn:E.
  - rewrite (H k) by (try exact E; lia). rewrite IH by (intros j Hj; apply H; lia). reflexivity.
  - rewrite IH by (intros j Hj; apply H; lia). reflexivity.
Qed.
Lemma zrange_from_app s a b : zrange_from s (a + b) = zrange_from s a ++ zrange_from (s + Z.of_nat a) b.
Proof.
  revert s. induction a as [|a IH]; intros s; cbn [Nat.add zrange_from app]; [f_equal; lia|]. rewrite IH. do 3 f_equal. lia.
Qed.
Lemma flat_map_ext_in {A B} (f g : A -> list B) l : (forall x, In x l -> f x = g x) -> flat_map f l = flat_map g l.
Proof.
  induction l as [|x l IH]; intros H; [reflexivity|]. cbn [flat_map]. rewrite H by (left; reflexivity). f_equal. apply IH. intros y Hy. apply H. right. exact Hy.
Qed.
Lemma flat_map_shift {B} (h : Z -> list B) s t n : flat_map h (zrange_from (s + t) n) = flat_map (fun f => h (s + f)) (zrange_from t n).
Proof.
  revert t. induction n as [|n IH]; intros t; [reflexivity|]. cbn [zrange_from flat_map]. f_equal.
  rewrite <- IH. do 2 f_equal. lia.
Qed.
Lemma flat_map_app' {A B} (f : A -> list B) l1 l2 : flat_map f (l1 ++ l2) = flat_map f l1 ++ flat_map f l2.
Proof. apply flat_map_app. Qed.
Lemma grid {B} (h : Z -> list B) nf ns : 0 <= nf -> 0 <= ns ->
  flat_map h (zrange (nf * ns)) = flat_map (fun i => flat_map (fun f => h (i * nf + f)) (zrange nf)) (zrange ns).
Proof.
  intros Hf. revert ns. apply natlike_ind; [rewrite Z.mul_0_r; reflexivity|]. intros ns Hns IH.
  unfold zrange in *. replace (nf * Z.succ ns) with (nf * ns + nf) by lia. rewrite !Z2Nat.inj_add, Z2Nat.inj_succ by nia.
  rewrite zrange_from_app, flat_map_app, IH. replace (Datatypes.S (Z.to_nat ns)) with (Z.to_nat ns + 1)%nat by lia.
  rewrite zrange_from_app, flat_map_app. f_equal. cbn [zrange_from flat_map]. rewrite app_nil_r.
  rewrite !Z2Nat.id by nia. replace (0 + nf * ns) with (ns * nf + 0) by ring. rewrite flat_map_shift. reflexivity.
Qed.
Lemma flat_map_filter {A B} (P : A -> bool) (h : A -> list B) l : flat_map h (filter P l) = flat_map (fun x => if P x then h x else []) l.
Proof. induction l as [|x l IH]; [reflexivity|]. cbn [filter flat_map]. destruct (P x); cbn [flat_map app]; rewrite IH; reflexivity. Qed.
Lemma flat_map_one {A B} (h : A -> B) l : flat_map (fun x => [h x]) l = map h l.
Proof. induction l as [|x l IH]; [reflexivity|]. cbn [flat_map map app]. rewrite IH. reflexivity. Qed.

Lemma do_store_ok st m maxpa w n a mk d av dv : 0 <= n -> (forall k, 0 <= k < n -> a k = Some (av k) /\ av k <= maxpa) ->
  (forall k, 0 <= k < n -> exists b, mk k = Some b) -> (forall k, 0 <= k < n -> getb mk k = true -> d k = Some (dv k)) ->
  do_store st m maxpa w n a mk d = Some {| o_vs := finish st (Some (regs st));
    o_mem := store_list w (flat_map (fun j => if getb mk j then [(av j, dv j)] else []) (zrange n)) m; o_trap := None |}.
Proof.
  intros Hn Ha Hm Hd. unfold do_store, store_memory. destruct (Z.ltb_spec n 0); [lia|].
  rewrite filled_ok by (intros k Hk; exists (av k); apply Ha; exact Hk). cbn [negb].
  rewrite fault_none by (intros k Hk; unfold getz; destruct (Ha k Hk) as (-> & K); exact K).
  rewrite (filled_ok n mk) by exact Hm. cbn [negb]. rewrite (scatter_ok w a mk d dv).
  2: { rewrite Z2Nat.id by lia. intros j Hj. apply Hd. lia. }
  do 3 f_equal. apply flat_map_ext_in. intros j Hj. apply zrange_in in Hj. unfold getz. rewrite (proj1 (Ha j Hj)). reflexivity.
Qed.
(** The buffers of [nf] fields per segment. *)
Lemma do_store_grid st m maxpa w n ns a mk d (P : Z -> bool) av dv : 1 <= n -> 0 <= ns ->
  (forall i f, 0 <= i < ns -> 0 <= f < n -> a (i * n + f) = Some (av i f) /\ av i f <= maxpa /\ mk (i * n + f) = Some (P i) /\
     (P i = true -> d (i * n + f) = Some (dv i f))) ->
  do_store st m maxpa w (n * ns) a mk d = Some {| o_vs := finish st (Some (regs st));
    o_mem := store_list w (flat_map (fun i => map (fun f => (av i f, dv i f)) (zrange n)) (filter P (zrange ns))) m; o_trap := None |}.
Proof.
  intros Hn Hns H.
  assert (forall k, 0 <= k < n * ns -> exists i f, 0 <= i < ns /\ 0 <= f < n /\ k = i * n + f /\ k / n = i /\ k mod n = f) as HK.
  { intros k Hk. exists (k / n), (k mod n). pose proof (seg_index n ns k Hn ltac:(lia)) as (A & B).
    split; [exact A|]. split; [exact B|]. split; [|split; reflexivity]. rewrite (Z.div_mod k n) at 1 by lia. ring. }
  rewrite (do_store_ok st m maxpa w (n * ns) a mk d (fun k => av (k / n) (k mod n)) (fun k => dv (k / n) (k mod n))).
  - do 3 f_equal. rewrite flat_map_filter, grid by lia. apply flat_map_ext_in. intros i Hi. apply zrange_in in Hi.
    rewrite flat_map_ext_in with (g := fun f => if P i then [(av i f, dv i f)] else []).
    + destruct (P i); [apply flat_map_one|]. clear. induction (zrange n); [reflexivity|assumption].
    + intros f Hf. apply zrange_in in Hf. destruct (H i f Hi Hf) as (_ & _ & Hm & _). unfold getb. rewrite Hm.
      destruct (seg_index' n i f Hf) as (-> & ->). reflexivity.
  - nia.
  - intros k Hk. destruct (HK k Hk) as (i & f & Hi & Hf & -> & -> & ->). destruct (H i f Hi Hf) as (A & B & _). split; assumption.
  - intros k Hk. destruct (HK k Hk) as (i & f & Hi & Hf & -> & _). destruct (H i f Hi Hf) as (_ & _ & A & _). eexists; exact A.
  - intros k Hk. destruct (HK k Hk) as (i & f & Hi & Hf & -> & -> & ->). destruct (H i f Hi Hf) as (_ & _ & A & B). unfold getb. rewrite A. exact B.
Qed.

Definition goal_store (xlen : Z) (st : vstate) (m : mem) (I : vmem) (r : option outcome) : Prop :=
  let c := cfg st in let w := data_width (sew c) I in
  exists m', r = Some {| o_vs := {| regs := regs st; cfg := set_vstart c 0 |}; o_mem := m'; o_trap := None |} /\
    store_spec (vlenb c) (nregs (sew c) (lmul8 c) w) w (nf I) (vreg I) (vl c) (act (vlenb c) (vstart c) (vl c) (regs st) I)
      (addr xlen (vlenb c) w (regs st) I) (regs st) m m'.

Lemma store_goal xlen st m maxpa w n a mk d I : let c := cfg st in
  w = data_width (sew c) I -> 1 <= nf I -> vstart c = 0 -> 0 <= vl c -> n = nf I * vl c ->
  in_space xlen (vlenb c) w 0 (vl c) (regs st) I -> reachable xlen (vlenb c) w 0 (vl c) maxpa (regs st) I ->
  (forall i f, 0 <= i < vl c -> 0 <= f < nf I -> a (i * nf I + f) = Some (wrap 64 (raw_addr (vlenb c) w (regs st) I i f)) /\
     mk (i * nf I + f) = Some (mask_value (regs st) (vm I) i) /\
     (mask_value (regs st) (vm I) i = true -> d (i * nf I + f) = Some (elem (vlenb c) (regs st) (vreg I + f * nregs (sew c) (lmul8 c) w) w i))) ->
  goal_store xlen st m I (do_store st m maxpa w n a mk d).
Proof.
  intros c Ew Hn Hs Hv -> Hsp Hre H.
  rewrite (do_store_grid st m maxpa w (nf I) (vl c) a mk d (fun i => mask_value (regs st) (vm I) i)
    (addr xlen (vlenb c) w (regs st) I) (fun i f => elem (vlenb c) (regs st) (vreg I + f * nregs (sew c) (lmul8 c) w) w i)); [|exact Hn|exact Hv|].
  - unfold goal_store. fold c. rewrite <- Ew. eexists. split; [reflexivity|]. intros x. unfold stores.
    match goal with |- store_list _ (flat_map _ ?l1) _ _ = store_list _ (flat_map _ ?l2) _ _ => assert (l1 = l2) as ->; [|reflexivity] end.
    apply filter_ext_in. intros i Hi. apply zrange_in in Hi. unfold act. rewrite Hs.
    destruct (Z.leb_spec 0 i), (Z.ltb_spec i (vl c)); try lia. cbn [andb]. apply mask_of_ok. lia.
  - intros i f Hi Hf. destruct (H i f Hi Hf) as (A & B & C). assert (body 0 (vl c) I i f) as HB by (split; assumption).
    rewrite A. split; [f_equal; apply (addr_ok _ _ _ 0 (vl c)); assumption|]. split; [apply Hre; exact HB|]. split; assumption.
Qed.

Lemma vstore1_ok xlen st m maxpa I : let c := cfg st in let w := data_width (sew c) I in
  legal_mem (vlenb c) (sew c) (lmul8 c) (vl c) I -> nf I = 1 -> vstart c = 0 -> stride_ok 0 (vl c) I ->
  in_space xlen (vlenb c) w 0 (vl c) (regs st) I -> reachable xlen (vlenb c) w 0 (vl c) maxpa (regs st) I ->
  goal_store xlen st m I (exec_store st m maxpa I).
Proof.
  intros c w (HC & HG & Hnf & Hem & Hreg & HI) H1 Hs Hst Hsp Hre. fold w in HG, Hem, Hreg.
  pose proof (sew_ge1 _ _ _ _ HC) as Hsew. pose proof (lmul_pos _ _ _ _ HC) as Hl.
  destruct (w_facts _ _ _ _ w HC (proj1 HG)) as (Hw & Hvb & He & Hv). pose proof (proj1 (proj2 HG)) as Hem1.
  assert (w = data_width (sew c) I) as Ew0 by reflexivity.
  assert (w = match am I with Indexed _ _ _ => sew c | _ => ew I end) as Ew by reflexivity. clearbody w.
  unfold exec_store. rewrite H1. cbn [Z.eqb Pos.eqb].
  assert (forall i f, 0 <= f < nf I -> i * nf I + f = i /\ f = 0) as Hif by (intros i f Hf; rewrite H1 in *; lia).
  destruct (am I) as [|s|o iw vs2] eqn:Eam.
  - rewrite <- Ew. unfold vs_strided. fold c. rewrite emul_eq by lia.
    destruct (Z.ltb_spec 64 (emul8 (sew c) (lmul8 c) w)); [lia|]. destruct (Z.eqb_spec (emul8 (sew c) (lmul8 c) w) 0); [lia|]. cbn [orb].
    rewrite Hs, Z.sub_0_r. rewrite filled_ok.
    2: { intros k Hk. rewrite written_in by exact Hk. rewrite Z.add_0_r. eexists. apply (read_elem_ok _ _ _ _ _ _ _ _ HC HG). exact Hk. }
    cbn [negb]. apply store_goal; try assumption; try lia; [rewrite H1; unfold c; lia|]. fold c. intros i f Hi Hf. destruct (Hif i f Hf) as (-> & ->).
    rewrite !written_in, Z.add_0_r by exact Hi. split; [|split; [reflexivity|]].
    + rewrite strided_ok by (apply (unit_stride_ok _ _ _ _ w i HC (proj1 HG)); lia). do 2 f_equal. unfold raw_addr, seg_offset. rewrite Eam, H1. ring.
    + intros _. rewrite Z.mul_0_l, Z.add_0_r. apply (read_elem_ok _ _ _ _ _ _ _ _ HC HG). exact Hi.
  - rewrite <- Ew. unfold vs_strided. fold c. rewrite emul_eq by lia.
    destruct (Z.ltb_spec 64 (emul8 (sew c) (lmul8 c) w)); [lia|]. destruct (Z.eqb_spec (emul8 (sew c) (lmul8 c) w) 0); [lia|]. cbn [orb].
    rewrite Hs, Z.sub_0_r. rewrite filled_ok.
    2: { intros k Hk. rewrite written_in by exact Hk. rewrite Z.add_0_r. eexists. apply (read_elem_ok _ _ _ _ _ _ _ _ HC HG). exact Hk. }
    cbn [negb]. apply store_goal; try assumption; try lia; [rewrite H1; unfold c; lia|]. fold c. intros i f Hi Hf. destruct (Hif i f Hf) as (-> & ->).
    rewrite !written_in, Z.add_0_r by exact Hi. split; [|split; [reflexivity|]].
    + unfold stride_ok in Hst. rewrite Eam in Hst. rewrite strided_ok by (apply Hst; exact Hi). do 2 f_equal. unfold raw_addr, seg_offset. rewrite Eam. ring.
    + intros _. rewrite Z.mul_0_l, Z.add_0_r. apply (read_elem_ok _ _ _ _ _ _ _ _ HC HG). exact Hi.
  - unfold vs_indexed. fold c. rewrite emul_eq; [|exact Hsew|lia|].
    2: { destruct HI as (K & _). clear - K. destruct K as [<-|[<-|[<-|[<-|[]]]]]; lia. }
    pose proof (proj1 (proj2 HI)) as Hem2.
    destruct (Z.ltb_spec 64 (emul8 (sew c) (lmul8 c) iw)); [lia|]. destruct (Z.eqb_spec (emul8 (sew c) (lmul8 c) iw) 0); [lia|]. cbn [orb].
    rewrite Hs, !Z.sub_0_r, <- Ew. rewrite filled_ok.
    2: { intros k Hk. rewrite Z.add_0_r, written_in by exact Hk. eexists. apply (read_elem_ok _ _ _ _ _ _ _ _ HC HG). exact Hk. }
    cbn [negb]. apply store_goal; try assumption; try lia; [rewrite H1; unfold c; lia|]. fold c. intros i f Hi Hf. destruct (Hif i f Hf) as (-> & ->).
    rewrite !written_in, Z.add_0_r by exact Hi. split; [|split; [reflexivity|]].
    + rewrite (read_elem_ok _ _ _ _ _ _ _ _ HC HI) by lia. cbn [obind]. do 2 f_equal. unfold raw_addr, seg_offset. rewrite Eam. ring.
    + intros _. rewrite Z.mul_0_l, Z.add_0_r. apply (read_elem_ok _ _ _ _ _ _ _ _ HC HG). exact Hi.
Qed.

Lemma reg_elem_ok vb w g e rf r f i : vb = e * w -> 1 <= e -> 0 <= i < g * e -> 0 <= f -> (f + 1) * g <= num_regs r ->
  reg_elem vb rf r (f * g + i / e) w (i mod e) = Some (elem vb rf (r + f * g) w i).
Proof.
  intros Hvb He Hi Hf Hr. unfold reg_elem. pose proof (seg_index e g i He Hi) as (A & B).
  destruct (Z.ltb_spec (f * g + i / e) (num_regs r)); [|set (x := i / e) in *; clearbody x; nia].
  unfold elem. do 2 f_equal. pose proof (Z.div_mod i e ltac:(lia)) as D. set (x := i / e) in *. set (y := i mod e) in *. clearbody x y. subst i vb. ring.
Qed.

Lemma storeseg_ok xlen st m maxpa I seg : let c := cfg st in let w := data_width (sew c) I in let g := nregs (sew c) (lmul8 c) w in
  legal_mem (vlenb c) (sew c) (lmul8 c) (vl c) I -> vstart c = 0 -> nf I * g <= num_regs (vreg I) ->
  in_space xlen (vlenb c) w 0 (vl c) (regs st) I -> reachable xlen (vlenb c) w 0 (vl c) maxpa (regs st) I ->
  (forall i f, 0 <= i < vl c -> 0 <= f < nf I ->
      obind (seg i i) (fun s => Some (wrap 64 (s + f * w))) = Some (wrap 64 (raw_addr (vlenb c) w (regs st) I i f))) ->
  goal_store xlen st m I (vs_segment_gen st m maxpa w g (nf I) (vreg I) (vm I) seg).
Proof.
  intros c w g (HC & HG & Hnf & Hem & Hreg & HI) Hs Hr Hsp Hre Hseg. fold w in HG, Hem, Hreg.
  destruct (w_facts _ _ _ _ w HC (proj1 HG)) as (Hw & Hvb & He & Hv). pose proof (group_fits _ _ _ _ _ _ HC HG) as Hfit. fold g in Hfit.
  pose proof (group_holds _ _ _ _ _ _ HC HG) as (_ & Hg1). fold g in Hg1.
  unfold vs_segment_gen. fold c. rewrite Hs, Z.sub_0_r. rewrite (Z.quot_div_nonneg (vlenb c) w) by (clear - Hvb He Hw; set (e := vlenb c / w) in *; clearbody e; nia).
  apply store_goal; try assumption; try lia; [reflexivity|reflexivity|]. fold c. intros i f Hi Hf.
  rewrite !written_in by (clear - Hi Hf; nia). destruct (seg_index' (nf I) i f Hf) as (-> & ->). rewrite !Z.add_0_l.
  split; [apply Hseg; assumption|]. split; [reflexivity|]. intros ->. apply reg_elem_ok; [exact Hvb|exact He|lia|lia|].
  clear - Hf Hr Hg1. nia.
Qed.

Lemma nregs_max sew lmul8 w : 1 <= sew -> 0 <= lmul8 -> 0 <= w -> Z.max 1 (Z.quot (emul8 sew lmul8 w) 8) = nregs sew lmul8 w.
Proof. intros A B C. unfold nregs. rewrite Z.quot_div_nonneg; [reflexivity| |lia]. unfold emul8. apply Z.div_pos; nia. Qed.

(** Ordered indexed segment stores: the index read as a signed value. *)
Definition index_ok (vb vl : Z) (rf : mem) (I : vmem) : Prop :=
  match am I with
  | Indexed o iw vs2 => o = true /\ (iw = 8 \/ forall i, 0 <= i < vl -> elem vb rf vs2 iw i < 2 ^ (8 * iw - 1))
  | _ => True end.

Lemma vstore_seg_ok xlen st m maxpa I : let c := cfg st in let w := data_width (sew c) I in let g := nregs (sew c) (lmul8 c) w in
  byte_mem (regs st) ->
  legal_mem (vlenb c) (sew c) (lmul8 c) (vl c) I -> 2 <= nf I -> vstart c = 0 -> nf I * g <= widest (vreg I) ->
  index_ok (vlenb c) (vl c) (regs st) I ->
  in_space xlen (vlenb c) w 0 (vl c) (regs st) I -> reachable xlen (vlenb c) w 0 (vl c) maxpa (regs st) I ->
  goal_store xlen st m I (exec_store st m maxpa I).
Proof.
  intros c w g Hbr HL H1 Hs Hr Hix Hsp Hre. rewrite <- widest_regs in Hr. pose proof HL as (HC & HG & Hnf & Hem & Hreg & HI). fold w in HG, Hem, Hreg.
  pose proof (sew_ge1 _ _ _ _ HC) as Hsew. pose proof (lmul_pos _ _ _ _ HC) as Hl.
  destruct (w_facts _ _ _ _ w HC (proj1 HG)) as (Hw & Hvb & He & Hv). pose proof (proj1 (proj2 HG)) as Hem1.
  pose proof (fun seg => storeseg_ok xlen st m maxpa I seg HL Hs Hr Hsp Hre) as HF. cbv zeta in HF. fold c w g in HF.
  unfold exec_store. destruct (Z.eqb_spec (nf I) 1); [lia|].
  assert (g = nregs (sew c) (lmul8 c) w) as Eg by reflexivity. clearbody g.
  assert (w = match am I with Indexed _ _ _ => sew c | _ => ew I end) as Ew by reflexivity. clearbody w.
  unfold index_ok in Hix. destruct (am I) as [|s|o iw vs2] eqn:Eam.
  - rewrite <- Ew. unfold vs_segment. fold c. rewrite emul_eq by lia. rewrite nregs_max by lia. rewrite <- Eg.
    destruct (Z.ltb_spec 64 (emul8 (sew c) (lmul8 c) w * nf I)); [lia|].
    apply HF. intros i f Hi Hf. cbn [obind]. do 2 f_equal. unfold raw_addr, seg_offset. rewrite Eam. ring.
  - rewrite <- Ew. unfold vs_segment_strided. fold c. rewrite emul_eq by lia. rewrite nregs_max by lia. rewrite <- Eg.
    destruct (Z.ltb_spec 64 (emul8 (sew c) (lmul8 c) w * nf I)); [lia|].
    apply HF. intros i f Hi Hf. cbn [obind]. do 2 f_equal. unfold raw_addr, seg_offset. rewrite Eam. ring.
  - destruct Hix as (-> & Hix). unfold vs_segment_indexed. fold c. rewrite emul_eq; [|exact Hsew|lia|].
    2: { destruct HI as (K & _). clear - K. destruct K as [<-|[<-|[<-|[<-|[]]]]]; lia. }
    pose proof (proj1 (proj2 HI)) as Hem2.
    assert (emul8 (sew c) (lmul8 c) w = lmul8 c) as Elm by (rewrite Ew; unfold emul8; apply Z.div_mul; lia).
    rewrite Elm in Hem. destruct (Z.ltb_spec 64 (lmul8 c * nf I)); [lia|].
    destruct (Z.ltb_spec 64 (emul8 (sew c) (lmul8 c) iw)); [lia|]. destruct (Z.eqb_spec (emul8 (sew c) (lmul8 c) iw) 0); [lia|]. cbn [orb].
    rewrite <- Elm at 1. rewrite nregs_max by lia. rewrite <- Eg, <- Ew.
    apply HF. intros i f Hi Hf. rewrite (read_elem_ok _ _ _ _ _ _ _ _ HC HI) by lia. cbn [obind]. f_equal.
    assert (raw_addr (vlenb c) w (regs st) I i f = base I + elem (vlenb c) (regs st) vs2 iw i + f * w) as -> by (unfold raw_addr, seg_offset; rewrite Eam; reflexivity).
    set (o := elem (vlenb c) (regs st) vs2 iw i).
    assert (inw (8 * iw) o) as Ho by (apply load_inw; [exact Hbr|destruct HI as (K & _); clear - K; destruct K as [<-|[<-|[<-|[<-|[]]]]]; lia]).
    destruct Hix as [->|Hix].
    + replace (base I + sgn (8 * 8) o + f * w) with (base I + f * w + sgn 64 o) by (cbn [Z.mul Pos.mul]; ring).
      replace (base I + o + f * w) with (base I + f * w + o) by ring.
      rewrite <- wrap_add_r by lia. rewrite wrap_sgn by lia. rewrite wrap_add_r by lia. reflexivity.
    + assert (1 <= iw) as Hiw by (destruct HI as (K & _); clear - K; destruct K as [<-|[<-|[<-|[<-|[]]]]]; lia).
      rewrite sgn_id; [reflexivity|lia|]. specialize (Hix i Hi). fold o in Hix. unfold inw in Ho. pose proof (pow2_pos (8 * iw - 1) ltac:(lia)). lia.
Qed.
