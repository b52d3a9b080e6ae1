(** Whole segment loads. *)
From Coq Require Import ZArith Bool List Lia.
From Verif Require Import Bits Memory VelemSpec VmaskSpec VpermSpec VmemSpec VcfgModel VelemModel VmemModel
  VelemProofs4 VmaskProofs1 VpermProofs VmemProofs1 VmemProofs2 VmemProofs3.
Import ListNotations.
Local Open Scope Z_scope.

Lemma seg_index ns nf k : 1 <= ns -> 0 <= k < nf * ns -> 0 <= k / ns < nf /\ 0 <= k mod ns < ns.
Proof.
  intros Hn Hk. split; [|apply Z.mod_pos_bound; lia].
  split; [apply Z.div_pos; lia|apply Z.div_lt_upper_bound; lia].
Qed.
Lemma seg_index' ns f i : 0 <= i < ns -> (f * ns + i) / ns = f /\ (f * ns + i) mod ns = i.
Proof. intros H. rewrite Z.add_comm, Z.div_add, Z.mod_add by lia. rewrite Z.div_small, Z.mod_small by lia. lia. Qed.

Lemma loadseg_ok st m maxpa w n vd vm seg av : let c := cfg st in let g := nregs (sew c) (lmul8 c) w in byte_mem m ->
  config (vlenb c) (sew c) (lmul8 c) (vl c) -> group (sew c) (lmul8 c) w vd -> vstart c = 0 -> 1 <= vl c -> 1 <= n ->
  g = 1 \/ vl c = g * (vlenb c / w) -> n * g <= num_regs vd ->
  (forall i f, 0 <= i < vl c -> 0 <= f < n -> obind (seg i) (fun s => Some (wrap 64 (s + f * w))) = Some (av i f) /\ av i f <= maxpa) ->
  exists rf', vl_segment_gen st m maxpa w n vd vm seg = Some {| o_vs := finish st (Some rf'); o_mem := m; o_trap := None |} /\
    load_spec (vlenb c) g w n vd (fun i => 0 <= i < vl c /\ mask_of (vlenb c) (regs st) vm i = true) av m (regs st) rf'.
Proof.
  intros c g Hbm HC HG Hs Hv1 Hn Hg Hr Hseg. destruct (w_facts _ _ _ _ w HC (proj1 HG)) as (Hw & Hvb & He & Hv).
  pose proof (group_fits _ _ _ _ _ _ HC HG) as Hf. fold g in Hf. pose proof (group_holds _ _ _ _ _ _ HC HG) as (_ & Hg1). fold g in Hg1.
  unfold vl_segment_gen. fold c. rewrite Hs. set (ns := vl c) in *. set (N := n * ns).
  set (a := written 0 N _). set (mk := written 0 N (fun k => if 0 <=? k mod ns then Some (mask_value (regs st) vm (k mod ns)) else None)).
  assert (forall k, 0 <= k < N -> mk k = Some (mask_value (regs st) vm (k mod ns))) as Hmk.
  { intros k Hk. unfold mk. rewrite written_in by exact Hk. destruct (seg_index ns n k Hv1 Hk) as (_ & B).
    destruct (Z.leb_spec 0 (k mod ns)); [reflexivity|lia]. }
  assert (forall k, 0 <= k < N -> a k = Some (av (k mod ns) (k / ns)) /\ av (k mod ns) (k / ns) <= maxpa) as Ha.
  { intros k Hk. unfold a. rewrite written_in by exact Hk. destruct (seg_index ns n k Hv1 Hk) as (A & B).
    destruct (Z.leb_spec 0 (k mod ns)); [|lia]. apply Hseg; assumption. }
  rewrite (do_load_ok st m maxpa w N a mk _ (fun k => av (k mod ns) (k / ns))); [|unfold N; clear - Hn Hv1; nia|exact Ha|intros k Hk; eexists; apply Hmk; exact Hk].
  destruct (write_back_segment_ok (vlenb c) w vd n ns g mk
    (fun k => if getb mk k then Some (load_le m (getz a k) (Z.to_nat w)) else None)
    (fun k => load_le m (av (k mod ns) (k / ns)) (Z.to_nat w)) (regs st)) as (rf' & E & U1 & U2); try assumption.
  { exact (proj1 HG). }
  { destruct Hg as [Hg|Hg]; [left; split; [exact Hg|]|right; exact Hg]. rewrite Hg, Z.mul_1_l in Hf. exact Hf. }
  { intros k Hk Hb. rewrite Hb. unfold getz. rewrite (proj1 (Ha k Hk)). split; [reflexivity|]. apply load_inw; assumption. }
  fold N in E. rewrite E. cbn [obind]. exists rf'. split; [reflexivity|].
  assert (forall i f, 0 <= f < n -> 0 <= i < ns -> getb mk (f * ns + i) = mask_of (vlenb c) (regs st) vm i) as HM.
  { intros i f Hfn Hi. unfold getb. rewrite Hmk by (unfold N; clear - Hfn Hi; nia). rewrite (proj2 (seg_index' ns f i Hi)). apply mask_of_ok. lia. }
  split.
  - intros i f Hfn (Hi & Hm). rewrite U1; [|exact Hfn|exact Hi|rewrite HM; assumption].
    destruct (seg_index' ns f i Hi) as (A & B). rewrite A, B. reflexivity.
  - intros b Hb. apply U2. intros i f Hfn Hi Hm. rewrite HM in Hm by assumption. apply Hb; [exact Hfn|split; assumption].
Qed.

Lemma vload_seg_ok xlen st m maxpa I : let c := cfg st in let w := data_width (sew c) I in let g := nregs (sew c) (lmul8 c) w in byte_mem m ->
  legal_mem (vlenb c) (sew c) (lmul8 c) (vl c) I -> 2 <= nf I -> vstart c = 0 -> 1 <= vl c ->
  g = 1 \/ vl c = g * (vlenb c / w) -> nf I * g <= widest (vreg I) -> stride_ok 0 (vl c) I ->
  in_space xlen (vlenb c) w 0 (vl c) (regs st) I -> reachable xlen (vlenb c) w 0 (vl c) maxpa (regs st) I ->
  goal_load xlen st m I (exec_load st m maxpa I).
Proof.
  intros c w g Hbm (HC & HG & Hnf & Hem & Hreg & HI) H1 Hs Hv1 Hg Hr Hst Hsp Hre. fold w in HG, Hem, Hreg.
  rewrite <- widest_regs in Hr.
  pose proof (sew_ge1 _ _ _ _ HC) as Hsew. pose proof (lmul_pos _ _ _ _ HC) as Hl.
  destruct (w_facts _ _ _ _ w HC (proj1 HG)) as (Hw & Hvb & He & Hv). pose proof (proj1 (proj2 HG)) as Hem1.
  assert (forall i f, 0 <= i < vl c -> 0 <= f < nf I -> body 0 (vl c) I i f) as HB by (intros i f Hi Hf; split; assumption).
  assert (forall seg, (forall i f, 0 <= i < vl c -> 0 <= f < nf I ->
      obind (seg i) (fun s => Some (wrap 64 (s + f * w))) = Some (wrap 64 (raw_addr (vlenb c) w (regs st) I i f))) ->
    goal_load xlen st m I (vl_segment_gen st m maxpa w (nf I) (vreg I) (vm I) seg)) as HF.
  { intros seg Hseg.
    destruct (loadseg_ok st m maxpa w (nf I) (vreg I) (vm I) seg (addr xlen (vlenb c) w (regs st) I)) as (rf' & E & L); try assumption; [lia| |].
    { fold c. intros i f Hi Hf. rewrite (Hseg i f Hi Hf). split; [f_equal; apply (addr_ok _ _ _ 0 (vl c)); [exact Hsp|apply HB; assumption]|].
      apply Hre, HB; assumption. }
    exists rf'. split; [exact E|]. fold c w. eapply load_spec_ext; [| |exact L]; cbn beta.
    - intros i. rewrite Hs. symmetry. apply act_iff.
    - reflexivity. }
  unfold exec_load. destruct (Z.eqb_spec (nf I) 1); [lia|]. clearbody g.
  assert (w = match am I with Indexed _ _ _ => sew c | _ => ew I end) as Ew by reflexivity. clearbody w.
  destruct (am I) as [|s|o iw vs2] eqn:Eam.
  - rewrite <- Ew. unfold vl_segment. fold c. rewrite emul_eq by lia.
    destruct (Z.ltb_spec 64 (emul8 (sew c) (lmul8 c) w * nf I)); [lia|].
    apply HF. intros i f Hi Hf. cbn [obind]. do 2 f_equal. unfold raw_addr, seg_offset. rewrite Eam. ring.
  - rewrite <- Ew. unfold vl_segment_strided. fold c. rewrite emul_eq by lia.
    destruct (Z.ltb_spec 64 (emul8 (sew c) (lmul8 c) w * nf I)); [lia|].
    apply HF. intros i f Hi Hf. unfold stride_ok in Hst. rewrite Eam in Hst. rewrite strided_ok by (apply Hst; exact Hi). cbn [obind].
    f_equal. rewrite wrap_add_l by lia. f_equal. unfold raw_addr, seg_offset. rewrite Eam. ring.
  - unfold vl_segment_indexed. fold c. rewrite emul_eq; [|exact Hsew|lia|].
    2: { destruct HI as (K & _). clear - K. destruct K as [<-|[<-|[<-|[<-|[]]]]]; lia. }
    pose proof (proj1 (proj2 HI)) as Hem2.
    assert (lmul8 c * nf I <= 64).
    { unfold emul8 in Hem. rewrite Ew in Hem. rewrite Z.div_mul in Hem by lia. lia. }
    destruct (Z.ltb_spec 64 (lmul8 c * nf I)); [lia|].
    destruct (Z.ltb_spec 64 (emul8 (sew c) (lmul8 c) iw)); [lia|]. destruct (Z.eqb_spec (emul8 (sew c) (lmul8 c) iw) 0); [lia|]. cbn [orb].
    rewrite <- Ew. apply HF. intros i f Hi Hf. rewrite (read_elem_ok _ _ _ _ _ _ _ _ HC HI) by lia. cbn [obind].
    do 2 f_equal. unfold raw_addr, seg_offset. rewrite Eam. ring.
Qed.
