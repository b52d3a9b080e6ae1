(** Whole loads. *)
From Coq Require Import ZArith Bool List Lia.
From Verif Require Import Bits Memory VelemSpec VmaskSpec VpermSpec VmemSpec VcfgModel VelemModel VmemModel
  VelemProofs4 VmaskProofs1 VpermProofs VmemProofs1 VmemProofs2.
Import ListNotations.
Local Open Scope Z_scope.

Lemma do_load_ok st m maxpa w n a mk child av : 0 <= n -> (forall k, 0 <= k < n -> a k = Some (av k) /\ av k <= maxpa) ->
  (forall k, 0 <= k < n -> exists b, mk k = Some b) ->
  do_load st m maxpa w n n a mk child =
  obind (child (fun k => if getb mk k then Some (load_le m (getz a k) (Z.to_nat w)) else None))
    (fun rf => Some {| o_vs := finish st rf; o_mem := m; o_trap := None |}).
Proof.
  intros Hn Ha Hm. unfold do_load, load_memory. destruct (Z.ltb_spec n 0); [lia|]. cbn [orb].
  rewrite filled_ok by (intros k Hk; exists (av k); apply Ha; exact Hk). cbn [negb].
  rewrite fault_none by (intros k Hk; unfold getz; destruct (Ha k Hk) as (-> & K); exact K).
  rewrite Z.eqb_refl, (filled_ok n mk) by exact Hm. reflexivity.
Qed.

Lemma w_facts vb sew lmul8 vl w : config vb sew lmul8 vl -> In w [1; 2; 4; 8] ->
  1 <= w /\ vb = vb / w * w /\ 1 <= vb / w /\ 0 <= vl.
Proof.
  intros HC Hw. destruct (config_vb _ _ _ _ HC) as (q & Hq & ->). destruct (epv_spec q w Hw Hq) as (A & B).
  pose proof (vl_bits _ _ _ _ HC). split; [|split; [exact A|split; [exact B|lia]]].
  clear - Hw. destruct Hw as [<-|[<-|[<-|[<-|[]]]]]; lia.
Qed.
Lemma group_fits vb sew lmul8 vl w r : config vb sew lmul8 vl -> group sew lmul8 w r -> vl <= nregs sew lmul8 w * (vb / w).
Proof.
  intros HC HG. destruct (w_facts _ _ _ _ w HC (proj1 HG)) as (A & B & C & D).
  pose proof (group_holds _ _ _ _ _ _ HC HG) as (E & F). set (e := vb / w) in *. clearbody e. rewrite B in E.
  set (g := nregs sew lmul8 w) in *. clearbody g. clear - A E. nia.
Qed.
Lemma emul_eq sew lmul8 w : 1 <= sew -> 0 <= lmul8 -> 0 <= w -> Z.quot (w * lmul8) sew = emul8 sew lmul8 w.
Proof. intros A B C. unfold emul8. rewrite Z.quot_div_nonneg by nia. rewrite Z.mul_comm. reflexivity. Qed.
Lemma lmul_pos vb sew lmul8 vl : config vb sew lmul8 vl -> 1 <= lmul8 <= 64.
Proof. intros (_ & _ & H & _). destruct H as [<-|[<-|[<-|[<-|[<-|[<-|[<-|[]]]]]]]]; lia. Qed.

Lemma load_inw m a w : byte_mem m -> 1 <= w -> inw (8 * w) (load_le m a (Z.to_nat w)).
Proof. intros Hb H. pose proof (load_le_range m a (Z.to_nat w) Hb) as R. rewrite Z2Nat.id in R by lia. exact R. Qed.

(** One field: the exact effect for every vstart. *)
Lemma load1_gen st m maxpa w vd vm A av : let c := cfg st in let n := vl c - vstart c in let e := vlenb c / w in byte_mem m ->
  config (vlenb c) (sew c) (lmul8 c) (vl c) -> group (sew c) (lmul8 c) w vd -> 0 <= vstart c <= vl c ->
  (forall i, vstart c <= i < vl c -> A (i - vstart c) = Some (av i) /\ av i <= maxpa) ->
  let mk := written 0 n (fun k => Some (mask_value (regs st) vm (k + vstart c))) in
  exists rf', do_load st m maxpa w n n (written 0 n A) mk (fun v => write_back (vlenb c) w vd (vstart c) (vl c) n mk v (regs st))
      = Some {| o_vs := finish st (Some rf'); o_mem := m; o_trap := None |} /\
    elem_update (vlenb c) vd w
      (fun j => wb_hit e (vstart c) (vl c) j /\ mask_of (vlenb c) (regs st) vm (wb_src e (vstart c) j + vstart c) = true)
      (fun j => load_le m (av (wb_src e (vstart c) j + vstart c)) (Z.to_nat w)) (regs st) rf'.
Proof.
  intros c n e Hbm HC HG Hs HA mk. destruct (w_facts _ _ _ _ w HC (proj1 HG)) as (Hw & Hvb & He & Hv).
  pose proof (group_fits _ _ _ _ _ _ HC HG) as Hf. pose proof (num_regs_ge _ _ _ _ _ _ HC HG) as Hr.
  assert (forall k, 0 <= k < n -> mk k = Some (mask_value (regs st) vm (k + vstart c))) as Hmk.
  { intros k Hk. unfold mk. rewrite written_in by exact Hk. reflexivity. }
  assert (forall k, 0 <= k < n -> written 0 n A k = Some (av (k + vstart c)) /\ av (k + vstart c) <= maxpa) as HA'.
  { intros k Hk. rewrite written_in by exact Hk. destruct (HA (k + vstart c)) as (E1 & E2); [unfold n in Hk; lia|].
    replace (k + vstart c - vstart c) with k in E1 by lia. split; assumption. }
  rewrite (do_load_ok st m maxpa w n _ mk _ (fun k => av (k + vstart c))); [|unfold n; lia|exact HA'|intros k Hk; eexists; apply Hmk; exact Hk].
  fold e in Hvb, He, Hf.
  destruct (write_back_ok (vlenb c) w vd (vstart c) (vl c) mk
    (fun k => if getb mk k then Some (load_le m (getz (written 0 n A) k) (Z.to_nat w)) else None)
    (fun k => load_le m (av (k + vstart c)) (Z.to_nat w)) (regs st)) as (rf' & E & U); try assumption.
  { fold e. set (g := nregs (sew c) (lmul8 c) w) in *. clear - Hf Hr He. clearbody g e. nia. }
  { intros k Hk Hb. rewrite Hb. unfold getz. rewrite (proj1 (HA' k Hk)). split; [reflexivity|]. apply load_inw; [exact Hbm|exact Hw]. }
  fold n in E. rewrite E. cbn [obind]. exists rf'. split; [reflexivity|]. fold e in U.
  eapply upd_ext; [| |exact U]; cbn beta; [|reflexivity].
  intros j. assert (wb_hit e (vstart c) (vl c) j -> 0 <= wb_src e (vstart c) j < n) as HH.
  { clear - He Hs. unfold wb_hit, wb_src, n. intros (A1 & A2). destruct (Z.eqb_spec (j / e) (vstart c / e)) as [E|]; [|lia].
    specialize (A2 E). pose proof (Z.div_mod j e ltac:(lia)). rewrite E in H.
    pose proof (Z.mod_pos_bound j e ltac:(lia)). clearbody e. set (x := vstart c / e) in *. clearbody x. lia. }
  split; intros (K1 & K2); (split; [exact K1|]); specialize (HH K1); unfold getb in *; rewrite Hmk in * by exact HH.
  - rewrite <- mask_of_ok by (clear - HH Hs; lia). exact K2.
  - rewrite mask_of_ok with (vb := vlenb c) by (clear - HH Hs; lia). exact K2.
Qed.

Lemma addr_ok xlen vb w vstart vl rf I i f : in_space xlen vb w vstart vl rf I -> body vstart vl I i f ->
  wrap 64 (raw_addr vb w rf I i f) = addr xlen vb w rf I i f.
Proof.
  intros [->|(-> & H)] B; [reflexivity|]. specialize (H i f B). unfold addr, wrap. rewrite !Z.mod_small; [reflexivity|exact H|].
  assert (2 ^ 32 < 2 ^ 64) by reflexivity. lia.
Qed.
Lemma strided_ok b s i : - 2 ^ 63 <= i * s < 2 ^ 63 -> strided_addr b s i = Some (wrap 64 (b + i * s)).
Proof. intros H. unfold strided_addr. destruct (Z.leb_spec (- 2 ^ 63) (i * s)), (Z.ltb_spec (i * s) (2 ^ 63)); try lia; reflexivity. Qed.
Lemma unit_stride_ok vb sew lmul8 vl w i : config vb sew lmul8 vl -> In w [1; 2; 4; 8] -> 0 <= i < vl -> - 2 ^ 63 <= i * w < 2 ^ 63.
Proof.
  intros HC Hw Hi. destruct (vl_bits _ _ _ _ HC) as (Hv & _). destruct HC as ((k & Hk & ->) & _).
  assert (2 ^ k <= 2 ^ 13) by (apply Z.pow_le_mono_r; lia). change (2 ^ 13) with 8192 in H. change (2 ^ 63) with 9223372036854775808.
  assert (1 <= w <= 8) by (clear - Hw; destruct Hw as [<-|[<-|[<-|[<-|[]]]]]; lia). set (p := 2 ^ k) in *. clearbody p. nia.
Qed.

(** One field, vstart at a register boundary. *)
Lemma load1_ok st m maxpa w vd vm A av g : let c := cfg st in let n := vl c - vstart c in byte_mem m ->
  config (vlenb c) (sew c) (lmul8 c) (vl c) -> group (sew c) (lmul8 c) w vd -> 0 <= vstart c <= vl c -> vstart c mod (vlenb c / w) = 0 ->
  (forall i, vstart c <= i < vl c -> A (i - vstart c) = Some (av i) /\ av i <= maxpa) ->
  let mk := written 0 n (fun k => Some (mask_value (regs st) vm (k + vstart c))) in
  exists rf', do_load st m maxpa w n n (written 0 n A) mk (fun v => write_back (vlenb c) w vd (vstart c) (vl c) n mk v (regs st))
      = Some {| o_vs := finish st (Some rf'); o_mem := m; o_trap := None |} /\
    load_spec (vlenb c) g w 1 vd (fun i => vstart c <= i < vl c /\ mask_of (vlenb c) (regs st) vm i = true) (fun i _ => av i) m (regs st) rf'.
Proof.
  intros c n Hbm HC HG Hs Ha HA mk. destruct (w_facts _ _ _ _ w HC (proj1 HG)) as (Hw & Hvb & He & Hv).
  destruct (load1_gen st m maxpa w vd vm A av Hbm HC HG Hs HA) as (rf' & E & (U1 & U2)).
  exists rf'. split; [exact E|]. fold c in U1, U2. set (e := vlenb c / w) in *.
  split.
  - intros i f Hf (Hi & Hm). replace (vd + f * g) with vd by (replace f with 0 by lia; ring).
    destruct (wb_aligned e (vstart c) (vl c) i He Ha (proj1 Hs)) as (A1 & A2).
    assert (wb_src e (vstart c) i + vstart c = i) as Ei by (rewrite A2; lia). rewrite U1, Ei; [reflexivity|]. rewrite Ei. split; [apply A1; exact Hi|exact Hm].
  - intros b Hb. apply U2. intros j (Hj & Hm) Hin. destruct (wb_aligned e (vstart c) (vl c) j He Ha (proj1 Hs)) as (A1 & A2).
    apply A1 in Hj. rewrite A2 in Hm by lia. replace (j - vstart c + vstart c) with j in Hm by lia.
    apply (Hb j 0); [lia|split; assumption|]. rewrite Z.add_0_r. exact Hin.
Qed.

Lemma load_spec_ext vb g w n vd (P Q : Z -> Prop) a a' m rf rf' : (forall i, P i <-> Q i) -> (forall i f, 0 <= f < n -> P i -> a i f = a' i f) ->
  load_spec vb g w n vd P a m rf rf' -> load_spec vb g w n vd Q a' m rf rf'.
Proof.
  intros HP Ha (A & B). split.
  - intros i f Hf Hi. apply HP in Hi. rewrite <- Ha by assumption. apply A; assumption.
  - intros b Hb. apply B. intros i f Hf Hi. apply Hb; [exact Hf|apply HP; exact Hi].
Qed.
Lemma act_iff vb vstart vl rf I i : act vb vstart vl rf I i = true <-> vstart <= i < vl /\ mask_of vb rf (vm I) i = true.
Proof. unfold act. rewrite !andb_true_iff, Z.leb_le, Z.ltb_lt. tauto. Qed.

Definition goal_load (xlen : Z) (st : vstate) (m : mem) (I : vmem) (r : option outcome) : Prop :=
  let c := cfg st in let w := data_width (sew c) I in
  exists rf', r = Some {| o_vs := {| regs := rf'; cfg := set_vstart c 0 |}; o_mem := m; o_trap := None |} /\
    load_spec (vlenb c) (nregs (sew c) (lmul8 c) w) w (nf I) (vreg I) (fun i => act (vlenb c) (vstart c) (vl c) (regs st) I i = true)
      (addr xlen (vlenb c) w (regs st) I) m (regs st) rf'.

Lemma vload1_ok xlen st m maxpa I : let c := cfg st in let w := data_width (sew c) I in byte_mem m ->
  legal_mem (vlenb c) (sew c) (lmul8 c) (vl c) I -> nf I = 1 -> 0 <= vstart c <= vl c -> vstart c mod (vlenb c / w) = 0 ->
  match am I with Indexed _ _ _ => vstart c = 0 | _ => True end -> stride_ok (vstart c) (vl c) I ->
  in_space xlen (vlenb c) w (vstart c) (vl c) (regs st) I -> reachable xlen (vlenb c) w (vstart c) (vl c) maxpa (regs st) I ->
  goal_load xlen st m I (exec_load st m maxpa I).
Proof.
  intros c w Hbm (HC & HG & Hnf & Hem & Hreg & HI) H1 Hs Ha Hx Hst Hsp Hre. fold w in HG, Hem, Hreg.
  pose proof (sew_ge1 _ _ _ _ HC) as Hsew. pose proof (lmul_pos _ _ _ _ HC) as Hl.
  destruct (w_facts _ _ _ _ w HC (proj1 HG)) as (Hw & Hvb & He & Hv). pose proof (proj1 (proj2 HG)) as Hem1.
  assert (forall i, vstart c <= i < vl c -> body (vstart c) (vl c) I i 0) as HB by (intros i Hi; split; lia).
  assert (forall r, (exists rf', r = Some {| o_vs := finish st (Some rf'); o_mem := m; o_trap := None |} /\
    load_spec (vlenb c) (nregs (sew c) (lmul8 c) w) w 1 (vreg I) (fun i => vstart c <= i < vl c /\ mask_of (vlenb c) (regs st) (vm I) i = true)
      (fun i _ => addr xlen (vlenb c) w (regs st) I i 0) m (regs st) rf') -> goal_load xlen st m I r) as HF.
  { intros r (rf' & E & L). exists rf'. split; [exact E|]. rewrite H1. fold c w. eapply load_spec_ext; [| |exact L]; cbn beta.
    - intros i. symmetry. apply act_iff.
    - intros i f Hf _. replace f with 0 by lia. reflexivity. }
  unfold exec_load. rewrite H1. cbn [Z.eqb Pos.eqb].
  assert (forall i, vstart c <= i < vl c -> addr xlen (vlenb c) w (regs st) I i 0 <= maxpa) as Hmx by (intros i Hi; apply Hre, HB, Hi).
  assert (w = match am I with Indexed _ _ _ => sew c | _ => ew I end) as Ew by reflexivity. clearbody w.
  destruct (am I) as [|s|o iw vs2] eqn:Eam.
  - rewrite <- Ew. unfold vl_strided. fold c. rewrite emul_eq by lia.
    destruct (Z.ltb_spec 64 (emul8 (sew c) (lmul8 c) w)); [lia|]. destruct (Z.eqb_spec (emul8 (sew c) (lmul8 c) w) 0); [lia|]. cbn [orb].
    apply HF. apply (load1_ok st m maxpa w (vreg I) (vm I) _ (fun i => addr xlen (vlenb c) w (regs st) I i 0)); try assumption.
    fold c. intros i Hi. split; [|apply Hmx; exact Hi]. cbn beta. replace (i - vstart c + vstart c) with i by lia.
    rewrite strided_ok by (apply (unit_stride_ok _ _ _ _ w i HC (proj1 HG)); lia). f_equal.
    rewrite <- (addr_ok _ _ _ _ _ _ _ _ _ Hsp (HB i Hi)). f_equal. unfold raw_addr, seg_offset. rewrite Eam, H1. ring.
  - rewrite <- Ew. unfold vl_strided. fold c. rewrite emul_eq by lia.
    destruct (Z.ltb_spec 64 (emul8 (sew c) (lmul8 c) w)); [lia|]. destruct (Z.eqb_spec (emul8 (sew c) (lmul8 c) w) 0); [lia|]. cbn [orb].
    apply HF. apply (load1_ok st m maxpa w (vreg I) (vm I) _ (fun i => addr xlen (vlenb c) w (regs st) I i 0)); try assumption.
    fold c. intros i Hi. split; [|apply Hmx; exact Hi]. cbn beta. replace (i - vstart c + vstart c) with i by lia.
    unfold stride_ok in Hst. rewrite Eam in Hst. rewrite strided_ok by (apply Hst; exact Hi). f_equal.
    rewrite <- (addr_ok _ _ _ _ _ _ _ _ _ Hsp (HB i Hi)). f_equal. unfold raw_addr, seg_offset. rewrite Eam. ring.
  - unfold vl_indexed. fold c. rewrite emul_eq; [|exact Hsew|lia|].
    2: { destruct HI as (K & _). clear - K. destruct K as [<-|[<-|[<-|[<-|[]]]]]; lia. }
    pose proof (proj1 (proj2 HI)) as Hem2.
    destruct (Z.ltb_spec 64 (emul8 (sew c) (lmul8 c) iw)); [lia|]. destruct (Z.eqb_spec (emul8 (sew c) (lmul8 c) iw) 0); [lia|]. cbn [orb].
    apply HF. cbv zeta. subst w.
    pose proof (load1_ok st m maxpa (sew c) (vreg I) (vm I) (fun k => obind (read_elem (vlenb c) (regs st) vs2 iw (k + vstart c)) (fun o => Some (wrap 64 (base I + o))))
      (fun i => addr xlen (vlenb c) (sew c) (regs st) I i 0) (nregs (sew c) (lmul8 c) (sew c)) Hbm HC HG Hs Ha) as L. fold c in L.
    replace (vl c - vstart c) with (vl c) in * by lia. apply L. clear L.
    intros i Hi. split; [|apply Hmx; exact Hi]. replace (i - vstart c + vstart c) with i by lia.
    rewrite (read_elem_ok _ _ _ _ _ _ _ _ HC HI) by lia. cbn [obind]. f_equal.
    rewrite <- (addr_ok _ _ _ _ _ _ _ _ _ Hsp (HB i Hi)). f_equal. unfold raw_addr, seg_offset. rewrite Eam. ring.
Qed.
