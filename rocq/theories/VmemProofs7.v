(** Access faults and round trips. *)
From Coq Require Import ZArith Bool List Lia.
From Verif Require Import Bits Memory VelemSpec VmaskSpec VpermSpec VmemSpec VcfgModel VelemModel VmemModel
  VelemProofs4 VmaskProofs1 VpermProofs VmemProofs1 VmemProofs2 VmemProofs3 VmemProofs4 VmemProofs5 VmemProofs6.
Import ListNotations.
Local Open Scope Z_scope.

Lemma find_first (p : Z -> bool) s n k0 : s <= k0 < s + Z.of_nat n -> p k0 = true ->
  exists k, find p (zrange_from s n) = Some k /\ s <= k < s + Z.of_nat n /\ p k = true /\ forall j, s <= j < k -> p j = false.
Proof.
  revert s. induction n as [|n IH]; intros s Hk Hp; [lia|]. cbn [zrange_from find]. destruct (p s) eqn:E.
  - exists s. split; [reflexivity|]. split; [lia|]. split; [exact E|]. lia.
  - destruct (IH (s + 1)) as (k & F & A & B & C); [|exact Hp|].
    { assert (k0 <> s) by (intros ->; congruence). lia. }
    exists k. split; [exact F|]. split; [lia|]. split; [exact B|]. intros j Hj. destruct (Z.eq_dec j s) as [->|]; [exact E|apply C; lia].
Qed.
Lemma fault_first maxpa n a av : (forall k, 0 <= k < n -> a k = Some (av k)) -> (exists k, 0 <= k < n /\ maxpa < av k) ->
  exists k, 0 <= k < n /\ maxpa < av k /\ (forall j, 0 <= j < k -> av j <= maxpa) /\ fault maxpa n a = Some (av k).
Proof.
  intros Ha (k0 & Hk0 & H). unfold fault, zrange.
  assert (forall k, 0 <= k < n -> getz a k = av k) as Hg by (intros k Hk; unfold getz; rewrite (Ha k Hk); reflexivity).
  destruct (find_first (fun k => maxpa <? getz a k) 0 (Z.to_nat n) k0) as (k & F & A & B & C).
  { rewrite Z2Nat.id; lia. } { cbn beta. rewrite Hg by exact Hk0. apply Z.ltb_lt. exact H. }
  rewrite Z2Nat.id in A by lia. rewrite F. exists k. cbn beta in B. rewrite Hg in * by lia. apply Z.ltb_lt in B.
  split; [lia|]. split; [exact B|]. split; [|reflexivity]. intros j Hj. specialize (C j Hj). cbn beta in C. rewrite Hg in C by lia. apply Z.ltb_ge in C. exact C.
Qed.
Lemma do_load_fault st m maxpa w n nm a mk child av : 0 <= n -> 0 <= nm -> (forall k, 0 <= k < n -> a k = Some (av k)) -> (exists k, 0 <= k < n /\ maxpa < av k) ->
  exists k, 0 <= k < n /\ maxpa < av k /\ (forall j, 0 <= j < k -> av j <= maxpa) /\
    do_load st m maxpa w n nm a mk child = Some {| o_vs := {| regs := regs st; cfg := set_vstart (cfg st) 0 |}; o_mem := m; o_trap := Some (5, av k) |}.
Proof.
  intros Hn Hnm Ha Hx. destruct (fault_first maxpa n a av Ha Hx) as (k & A & B & C & F). exists k. repeat (split; [assumption|]).
  unfold do_load, load_memory. destruct (Z.ltb_spec n 0), (Z.ltb_spec nm 0); try lia. cbn [orb].
  rewrite filled_ok by (intros j Hj; eexists; apply Ha; exact Hj). cbn [negb]. rewrite F. reflexivity.
Qed.
Lemma do_store_fault st m maxpa w n a mk d av : 0 <= n -> (forall k, 0 <= k < n -> a k = Some (av k)) -> (exists k, 0 <= k < n /\ maxpa < av k) ->
  exists k, 0 <= k < n /\ maxpa < av k /\ (forall j, 0 <= j < k -> av j <= maxpa) /\
    do_store st m maxpa w n a mk d = Some {| o_vs := {| regs := regs st; cfg := set_vstart (cfg st) 0 |}; o_mem := m; o_trap := Some (7, av k) |}.
Proof.
  intros Hn Ha Hx. destruct (fault_first maxpa n a av Ha Hx) as (k & A & B & C & F). exists k. repeat (split; [assumption|]).
  unfold do_store, store_memory. destruct (Z.ltb_spec n 0); try lia.
  rewrite filled_ok by (intros j Hj; eexists; apply Ha; exact Hj). cbn [negb]. rewrite F. reflexivity.
Qed.

(** Result of a faulting access: [i] is the first unreachable element. *)
Definition goal_fault (xlen cause : Z) (st : vstate) (m : mem) (maxpa : Z) (I : vmem) (r : option outcome) : Prop :=
  let c := cfg st in let a i := addr xlen (vlenb c) (data_width (sew c) I) (regs st) I i 0 in
  exists i, vstart c <= i < vl c /\ maxpa < a i /\ (forall j, vstart c <= j < i -> a j <= maxpa) /\
    r = Some {| o_vs := {| regs := regs st; cfg := set_vstart c 0 |}; o_mem := m; o_trap := Some (cause, a i) |}.

Lemma vload1_fault xlen st m maxpa I : let c := cfg st in let w := data_width (sew c) I in
  legal_mem (vlenb c) (sew c) (lmul8 c) (vl c) I -> nf I = 1 -> 0 <= vstart c ->
  stride_ok (vstart c) (vl c) I -> in_space xlen (vlenb c) w (vstart c) (vl c) (regs st) I ->
  (exists i, vstart c <= i < vl c /\ maxpa < addr xlen (vlenb c) w (regs st) I i 0) ->
  goal_fault xlen 5 st m maxpa I (exec_load st m maxpa I).
Proof.
  intros c w (HC & HG & Hnf & Hem & Hreg & HI) H1 Hs Hst Hsp (i0 & Hi0 & Hx). fold w in HG, Hem, Hreg.
  pose proof (sew_ge1 _ _ _ _ HC) as Hsew. pose proof (lmul_pos _ _ _ _ HC) as Hl.
  destruct (w_facts _ _ _ _ w HC (proj1 HG)) as (Hw & Hvb & He & Hv). pose proof (proj1 (proj2 HG)) as Hem1.
  assert (forall i, vstart c <= i < vl c -> body (vstart c) (vl c) I i 0) as HB by (intros i Hi; split; lia).
  set (av k := addr xlen (vlenb c) w (regs st) I (k + vstart c) 0).
  assert (forall nm A mk child w', 0 <= nm -> (forall k, 0 <= k < vl c - vstart c -> A k = Some (wrap 64 (raw_addr (vlenb c) w (regs st) I (k + vstart c) 0))) ->
    goal_fault xlen 5 st m maxpa I (do_load st m maxpa w' (vl c - vstart c) nm (written 0 (vl c - vstart c) A) mk child)) as HF.
  { intros nm A mk child w' Hnm HA.
    destruct (do_load_fault st m maxpa w' (vl c - vstart c) nm (written 0 (vl c - vstart c) A) mk child av) as (k & K1 & K2 & K3 & E); [lia|exact Hnm| | |].
    - intros k Hk. rewrite written_in, HA by exact Hk. f_equal. apply (addr_ok _ _ _ _ _ _ _ _ _ Hsp). apply HB. lia.
    - exists (i0 - vstart c). split; [lia|]. unfold av. replace (i0 - vstart c + vstart c) with i0 by lia. exact Hx.
    - exists (k + vstart c). fold c w. split; [lia|]. split; [exact K2|]. split; [|exact E].
      intros j Hj. specialize (K3 (j - vstart c) ltac:(lia)). unfold av in K3. replace (j - vstart c + vstart c) with j in K3 by lia. exact K3. }
  unfold exec_load. rewrite H1. cbn [Z.eqb Pos.eqb].
  assert (w = match am I with Indexed _ _ _ => sew c | _ => ew I end) as Ew by reflexivity. clearbody w.
  destruct (am I) as [|s|o iw vs2] eqn:Eam.
  - rewrite <- Ew. unfold vl_strided. fold c. rewrite emul_eq by lia.
    destruct (Z.ltb_spec 64 (emul8 (sew c) (lmul8 c) w)); [lia|]. destruct (Z.eqb_spec (emul8 (sew c) (lmul8 c) w) 0); [lia|]. cbn [orb].
    apply HF; [lia|]. intros k Hk. rewrite strided_ok by (apply (unit_stride_ok _ _ _ _ w _ HC (proj1 HG)); lia). do 2 f_equal.
    unfold raw_addr, seg_offset. rewrite Eam, H1. ring.
  - rewrite <- Ew. unfold vl_strided. fold c. rewrite emul_eq by lia.
    destruct (Z.ltb_spec 64 (emul8 (sew c) (lmul8 c) w)); [lia|]. destruct (Z.eqb_spec (emul8 (sew c) (lmul8 c) w) 0); [lia|]. cbn [orb].
    apply HF; [lia|]. intros k Hk. unfold stride_ok in Hst. rewrite Eam in Hst. rewrite strided_ok by (apply Hst; lia). do 2 f_equal.
    unfold raw_addr, seg_offset. rewrite Eam. ring.
  - unfold vl_indexed. fold c. rewrite emul_eq; [|exact Hsew|lia|].
    2: { destruct HI as (K & _). clear - K. destruct K as [<-|[<-|[<-|[<-|[]]]]]; lia. }
    pose proof (proj1 (proj2 HI)) as Hem2.
    destruct (Z.ltb_spec 64 (emul8 (sew c) (lmul8 c) iw)); [lia|]. destruct (Z.eqb_spec (emul8 (sew c) (lmul8 c) iw) 0); [lia|]. cbn [orb].
    apply HF; [lia|]. intros k Hk. rewrite (read_elem_ok _ _ _ _ _ _ _ _ HC HI) by lia. cbn [obind]. do 2 f_equal.
    unfold raw_addr, seg_offset. rewrite Eam. ring.
Qed.

Lemma vstore1_fault xlen st m maxpa I : let c := cfg st in let w := data_width (sew c) I in
  legal_mem (vlenb c) (sew c) (lmul8 c) (vl c) I -> nf I = 1 -> vstart c = 0 ->
  stride_ok 0 (vl c) I -> in_space xlen (vlenb c) w 0 (vl c) (regs st) I ->
  (exists i, 0 <= i < vl c /\ maxpa < addr xlen (vlenb c) w (regs st) I i 0) ->
  goal_fault xlen 7 st m maxpa I (exec_store st m maxpa I).
Proof.
  intros c w (HC & HG & Hnf & Hem & Hreg & HI) H1 Hs Hst Hsp (i0 & Hi0 & Hx). fold w in HG, Hem, Hreg.
  pose proof (sew_ge1 _ _ _ _ HC) as Hsew. pose proof (lmul_pos _ _ _ _ HC) as Hl.
  destruct (w_facts _ _ _ _ w HC (proj1 HG)) as (Hw & Hvb & He & Hv). pose proof (proj1 (proj2 HG)) as Hem1.
  set (av k := addr xlen (vlenb c) w (regs st) I k 0).
  assert (forall A mk d w', (forall k, 0 <= k < vl c -> A k = Some (wrap 64 (raw_addr (vlenb c) w (regs st) I k 0))) ->
    goal_fault xlen 7 st m maxpa I (do_store st m maxpa w' (vl c) A mk d)) as HF.
  { intros A mk d w' HA.
    destruct (do_store_fault st m maxpa w' (vl c) A mk d av) as (k & K1 & K2 & K3 & E); [lia| | |].
    - intros k Hk. rewrite HA by exact Hk. f_equal. apply (addr_ok _ _ _ _ _ _ _ _ _ Hsp). split; lia.
    - exists i0. split; [lia|]. exact Hx.
    - exists k. fold c w. rewrite Hs. split; [lia|]. split; [exact K2|]. split; [|exact E]. exact K3. }
  unfold exec_store. rewrite H1. cbn [Z.eqb Pos.eqb].
  assert (w = match am I with Indexed _ _ _ => sew c | _ => ew I end) as Ew by reflexivity. clearbody w.
  destruct (am I) as [|s|o iw vs2] eqn:Eam.
  - rewrite <- Ew. unfold vs_strided. fold c. rewrite emul_eq by lia.
    destruct (Z.ltb_spec 64 (emul8 (sew c) (lmul8 c) w)); [lia|]. destruct (Z.eqb_spec (emul8 (sew c) (lmul8 c) w) 0); [lia|]. cbn [orb].
    rewrite Hs, Z.sub_0_r. rewrite filled_ok.
    2: { intros k Hk. rewrite written_in by exact Hk. rewrite Z.add_0_r. eexists. apply (read_elem_ok _ _ _ _ _ _ _ _ HC HG). exact Hk. }
    cbn [negb]. apply HF. intros k Hk. rewrite written_in, Z.add_0_r by exact Hk.
    rewrite strided_ok by (apply (unit_stride_ok _ _ _ _ w _ HC (proj1 HG)); lia). do 2 f_equal.
    unfold raw_addr, seg_offset. rewrite Eam, H1. ring.
  - rewrite <- Ew. unfold vs_strided. fold c. rewrite emul_eq by lia.
    destruct (Z.ltb_spec 64 (emul8 (sew c) (lmul8 c) w)); [lia|]. destruct (Z.eqb_spec (emul8 (sew c) (lmul8 c) w) 0); [lia|]. cbn [orb].
    rewrite Hs, Z.sub_0_r. rewrite filled_ok.
    2: { intros k Hk. rewrite written_in by exact Hk. rewrite Z.add_0_r. eexists. apply (read_elem_ok _ _ _ _ _ _ _ _ HC HG). exact Hk. }
    cbn [negb]. apply HF. intros k Hk. rewrite written_in, Z.add_0_r by exact Hk.
    unfold stride_ok in Hst. rewrite Eam in Hst. rewrite strided_ok by (apply Hst; lia). do 2 f_equal.
    unfold raw_addr, seg_offset. rewrite Eam. ring.
  - unfold vs_indexed. fold c. rewrite emul_eq; [|exact Hsew|lia|].
    2: { destruct HI as (K & _). clear - K. destruct K as [<-|[<-|[<-|[<-|[]]]]]; lia. }
    pose proof (proj1 (proj2 HI)) as Hem2.
    destruct (Z.ltb_spec 64 (emul8 (sew c) (lmul8 c) iw)); [lia|]. destruct (Z.eqb_spec (emul8 (sew c) (lmul8 c) iw) 0); [lia|]. cbn [orb].
    rewrite Hs, !Z.sub_0_r, <- Ew. rewrite filled_ok.
    2: { intros k Hk. rewrite Z.add_0_r, written_in by exact Hk. eexists. apply (read_elem_ok _ _ _ _ _ _ _ _ HC HG). exact Hk. }
    cbn [negb]. apply HF. intros k Hk. rewrite written_in, Z.add_0_r by exact Hk.
    rewrite (read_elem_ok _ _ _ _ _ _ _ _ HC HI) by lia. cbn [obind]. do 2 f_equal.
    unfold raw_addr, seg_offset. rewrite Eam. ring.
Qed.

(** A unit-stride (segment) store, read back. *)
Lemma store_spec_read vb g w n vs3 vl (P : Z -> bool) base rf m m' i f : byte_mem rf -> 1 <= w -> 1 <= n -> 0 <= base -> base + n * vl * w <= 2 ^ 64 ->
  store_spec vb g w n vs3 vl P (fun i f => (base + i * (n * w) + f * w) mod 2 ^ 64) rf m m' -> 0 <= i < vl -> P i = true -> 0 <= f < n ->
  load_le m' ((base + i * (n * w) + f * w) mod 2 ^ 64) (Z.to_nat w) = elem vb rf (vs3 + f * g) w i.
Proof.
  intros Hb Hw Hn Hb0 Hb64 HS Hi HP Hf.
  assert (forall i f, 0 <= i < vl -> 0 <= f < n -> (base + i * (n * w) + f * w) mod 2 ^ 64 = base + (i * n + f) * w) as HA.
  { intros i' f' Hi' Hf'. replace (base + i' * (n * w) + f' * w) with (base + (i' * n + f') * w) by ring.
    apply Z.mod_small. assert (0 <= i' * n + f' /\ i' * n + f' + 1 <= n * vl) as (A & B) by nia.
    set (x := i' * n + f') in *. clearbody x. set (y := n * vl) in *. clearbody y. clear - A B Hw Hb0 Hb64. nia. }
  erewrite load_le_ext by (intros x _; apply HS).
  rewrite (store_list_read w _ m _ (elem vb rf (vs3 + f * g) w i)); [apply mod8; apply load_inw; assumption|lia| |].
  - unfold stores. apply in_flat_map. exists i. split; [apply filter_In; split; [apply zrange_in; exact Hi|exact HP]|].
    apply in_map_iff. exists f. split; [reflexivity|apply zrange_in; exact Hf].
  - intros a' v' Hin. unfold stores in Hin. apply in_flat_map in Hin. destruct Hin as (i' & Hi' & Hin).
    apply filter_In in Hi'. destruct Hi' as (Hi' & _). apply zrange_in in Hi'. apply in_map_iff in Hin. destruct Hin as (f' & E & Hf').
    apply zrange_in in Hf'. injection E as <- <-. rewrite !HA by assumption.
    destruct (Z.eq_dec (i' * n + f') (i * n + f)) as [E|NE].
    + left. assert (i' = i) as -> by nia. assert (f' = f) as -> by nia. reflexivity.
    + right. set (x := i' * n + f') in *. set (y := i * n + f) in *. clearbody x y. clear - NE Hw. nia.
Qed.

(** Segments: some unreachable element is reported. *)
Definition goal_seg_fault (xlen cause : Z) (st : vstate) (m : mem) (maxpa : Z) (I : vmem) (r : option outcome) : Prop :=
  let c := cfg st in let a := addr xlen (vlenb c) (data_width (sew c) I) (regs st) I in
  exists i f, body 0 (vl c) I i f /\ maxpa < a i f /\
    r = Some {| o_vs := {| regs := regs st; cfg := set_vstart c 0 |}; o_mem := m; o_trap := Some (cause, a i f) |}.

Lemma vload_seg_fault xlen st m maxpa I : let c := cfg st in let w := data_width (sew c) I in
  legal_mem (vlenb c) (sew c) (lmul8 c) (vl c) I -> 2 <= nf I -> vstart c = 0 -> stride_ok 0 (vl c) I ->
  in_space xlen (vlenb c) w 0 (vl c) (regs st) I ->
  (exists i f, body 0 (vl c) I i f /\ maxpa < addr xlen (vlenb c) w (regs st) I i f) ->
  goal_seg_fault xlen 5 st m maxpa I (exec_load st m maxpa I).
Proof.
  intros c w (HC & HG & Hnf & Hem & Hreg & HI) H1 Hs Hst Hsp (i0 & f0 & (Hi0 & Hf0) & Hx). fold w in HG, Hem, Hreg.
  pose proof (sew_ge1 _ _ _ _ HC) as Hsew. pose proof (lmul_pos _ _ _ _ HC) as Hl.
  destruct (w_facts _ _ _ _ w HC (proj1 HG)) as (Hw & Hvb & He & Hv). pose proof (proj1 (proj2 HG)) as Hem1.
  assert (forall seg, (forall i f, 0 <= i < vl c -> 0 <= f < nf I ->
      obind (seg i) (fun s => Some (wrap 64 (s + f * w))) = Some (wrap 64 (raw_addr (vlenb c) w (regs st) I i f))) ->
    goal_seg_fault xlen 5 st m maxpa I (vl_segment_gen st m maxpa w (nf I) (vreg I) (vm I) seg)) as HF.
  { intros seg Hseg. unfold vl_segment_gen. fold c. rewrite Hs. set (ns := vl c) in *.
    match goal with |- context [do_load _ _ _ _ ?n _ ?a ?mk ?ch] =>
      destruct (do_load_fault st m maxpa w n n a mk ch (fun k => addr xlen (vlenb c) w (regs st) I (k mod ns) (k / ns))) as (k & K1 & K2 & _ & E) end.
    - nia.
    - nia.
    - intros k Hk. destruct (seg_index ns (nf I) k ltac:(lia) Hk) as (A & B). rewrite written_in by exact Hk.
      destruct (Z.leb_spec 0 (k mod ns)); [|lia]. rewrite Hseg by assumption. f_equal. apply (addr_ok _ _ _ _ _ _ _ _ _ Hsp). split; assumption.
    - exists (f0 * ns + i0). destruct (seg_index' ns f0 i0 Hi0) as (-> & ->). split; [clear - Hi0 Hf0; nia|exact Hx].
    - destruct (seg_index ns (nf I) k ltac:(lia) K1) as (A & B). exists (k mod ns), (k / ns). fold c w ns. split; [split; assumption|]. split; [exact K2|exact E]. }
  unfold exec_load. destruct (Z.eqb_spec (nf I) 1); [lia|].
  assert (w = match am I with Indexed _ _ _ => sew c | _ => ew I end) as Ew by reflexivity. clearbody w.
  destruct (am I) as [|s|o iw vs2] eqn:Eam.
  - rewrite <- Ew. unfold vl_segment. fold c. rewrite emul_eq by lia.
    destruct (Z.ltb_spec 64 (emul8 (sew c) (lmul8 c) w * nf I)); [lia|].
    apply HF. intros i f Hi Hf. cbn [obind]. do 2 f_equal. unfold raw_addr, seg_offset. rewrite Eam. ring.
  - rewrite <- Ew. unfold vl_segment_strided. fold c. rewrite emul_eq by lia.
    destruct (Z.ltb_spec 64 (emul8 (sew c) (lmul8 c) w * nf I)); [lia|].
    apply HF. intros i f Hi Hf. unfold stride_ok in Hst. rewrite Eam in Hst. rewrite strided_ok by (apply Hst; exact Hi). cbn [obind].
    f_equal. rewrite wrap_add_l by lia. f_equal. unfold raw_addr, seg_offset. rewrite Eam. ring.
  - unfold vl_segment_indexed. fold c. rewrite emul_eq; [|exact Hsew|lia|].
    2: { destruct HI as (K & _). clear - K. destruct K as [<-|[<-|[<-|[<-|[]]]]]; lia. }
    pose proof (proj1 (proj2 HI)) as Hem2.
    assert (lmul8 c * nf I <= 64).
    { unfold emul8 in Hem. rewrite Ew in Hem. rewrite Z.div_mul in Hem by lia. lia. }
    destruct (Z.ltb_spec 64 (lmul8 c * nf I)); [lia|].
    destruct (Z.ltb_spec 64 (emul8 (sew c) (lmul8 c) iw)); [lia|]. destruct (Z.eqb_spec (emul8 (sew c) (lmul8 c) iw) 0); [lia|]. cbn [orb].
    rewrite <- Ew. apply HF. intros i f Hi Hf. rewrite (read_elem_ok _ _ _ _ _ _ _ _ HC HI) by lia. cbn [obind].
    do 2 f_equal. unfold raw_addr, seg_offset. rewrite Eam. ring.
Qed.
