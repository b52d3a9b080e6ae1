(** C40: the vector permutation instructions. *)
From Coq Require Import ZArith Bool List Lia.
From Verif Require Import Bits Memory VelemSpec VmaskSpec VpermSpec VcfgModel VelemModel VmaskModel VpermModel
  VelemProofs4 VmaskProofs1 VmaskProofs2 VmaskProofs3 VpermProofs VelemProps VmaskProps.
Import ListNotations.
Local Open Scope Z_scope.

(** Proof helper. *)
Lemma some_prop {A} (o : option A) (P : A -> Prop) : match o with Some s => P s | None => False end -> exists s, o = Some s /\ P s.
Proof. destruct o as [s|]; [eauto|intros []]. Qed.

(** C40.  vrgather.vv/vx/vi and vrgatherei16.vv: every active body element j of vd becomes vs2[index j], or 0
    if the index is not below VLMAX; nothing else changes.  Missing: masked instructions whose vl
    exceeds one register; indices between VLMAX and the largest group that can start at vs2; indices of
    2^32 and more (all refuted below). *)
Theorem vrgather_partial : forall st (ei16 : bool) vd vs2 s1 vm,
  let c := cfg st in
  let w1 := if ei16 then 2 else sew c in
  let g := nregs (sew c) (lmul8 c) (sew c) in
  let vlmax := vlmax_of (vlenb c) (sew c) (lmul8 c) in
  let idx j := match s1 with Vec r => elem (vlenb c) (regs st) r w1 j | Scalar x => x end in
  let act := active_body (vlenb c) (regs st) vm (vstart c) (vl c) in
  config (vlenb c) (sew c) (lmul8 c) (vl c) -> byte_mem (regs st) -> vexc c = false -> 0 <= vstart c ->
  group (sew c) (lmul8 c) (sew c) vd -> group (sew c) (lmul8 c) (sew c) vs2 -> disjoint vd g vs2 g ->
  match s1 with
  | Vec r => group (sew c) (lmul8 c) w1 r /\ disjoint vd g r (nregs (sew c) (lmul8 c) w1)
  | Scalar x => ei16 = false /\ 0 <= x
  end ->
  vm = true \/ vl c <= vlenb c / sew c ->
  (forall j, act j -> idx j < vlmax \/ widest vs2 * (vlenb c / sew c) <= idx j < 2 ^ 32) ->
  exists st', exec_gather st ei16 vd vs2 s1 vm = Some st' /\ cfg st' = set_vstart c 0 /\
    elem_update (vlenb c) vd (sew c) act (gather_spec vlmax (elem (vlenb c) (regs st) vs2 (sew c)) idx) (regs st) (regs st').
Proof.
  intros st ei16 vd vs2 s1 vm c w1 g vlmax idx act HC Hb Hx Hst HD H2 Hdis H1 Hmk Hidx.
  pose proof (get_facts _ _ _ _ _ HC HD) as [Fvb Fs Fin Fe Fe1 Fvl Fm Fm2 Fdiv]. fold g in Fm, Fdiv. fold vlmax in Fvl, Fm, Fm2.
  destruct (vlmax_group _ _ _ _ _ HC H2) as (_ & Hnr & _). fold vlmax in Hnr. rewrite widest_regs in Hnr.
  unfold exec_gather. rewrite (switch _ _ _ _ _ _ HC eq_refl). cbv zeta. fold c w1. rewrite Hx.
  assert (lmul8 c * w1 / sew c <= 64) as Hem.
  { destruct s1 as [r|x]; [destruct H1 as ((_ & H1 & _) & _); unfold emul8 in H1; lia|]. destruct H1 as (E & _). unfold w1. rewrite E.
    destruct HD as (_ & HD & _). unfold emul8 in HD. lia. }
  destruct (Z.ltb_spec 64 (lmul8 c * w1 / sew c)); [lia|].
  assert (In w1 [1; 2; 4; 8]) as Hw1 by (unfold w1; destruct ei16; [cbn; auto|exact Fin]).
  assert (1 <= w1) as Hw1' by (clear - Hw1; destruct Hw1 as [<-|[<-|[<-|[<-|[]]]]]; lia).
  set (elt := gather_elt (vlenb c) (sew c) w1 vs2 s1).
  assert (forall j, 0 <= idx j) as Hidx0.
  { intros j. unfold idx. destruct s1 as [r|x]; [|lia]. apply (elem_inw _ _ _ _ j Hb). lia. }
  apply perm_update; try assumption; [intros j (Hj & _); exact Hj|].
  intros rf j Hj Hag. unfold elt, gather_elt. destruct (mask_of (vlenb (cfg st)) (regs st) vm j) eqn:Em.
  2: { right. split; [|reflexivity]. intros (_ & Hm). unfold c in Hm. congruence. }
  left. assert (act j) as Ha by (split; [exact Hj|exact Em]). split; [exact Ha|]. split.
  2: { unfold gather_spec. fold c. destruct (_ <? _); [apply elem_inw; [exact Hb|lia]|].
       unfold inw. pose proof (pow2_pos (8 * sew c)) as Hp. clear - Hp Fs. lia. }
  fold c in Hj, Hag |- *.
  assert (j / (vlenb c / sew c) <= g) as Hjg by (apply Fdiv; lia).
  assert (match s1 with Vec r => read_elem (vlenb c) rf r w1 j | Scalar x => Some x end = Some (idx j)) as ->.
  { unfold idx. destruct s1 as [r|x]; [|reflexivity]. destruct H1 as (H1 & Hd1).
    rewrite (read_elem_ok _ _ _ _ _ _ _ _ HC H1) by lia. f_equal.
    apply (elem_dis _ _ _ vd g _ (nregs (sew c) (lmul8 c) w1) _ _ (j / (vlenb c / sew c))); try assumption; try lia.
    pose proof (group_holds _ _ _ _ _ _ HC H1) as (Hh & _). fold c in Hh. clear - Hh Hj Hw1'. nia. }
  cbn [obind]. cbv zeta. specialize (Hidx j Ha).
  specialize (Hidx0 j). unfold gather_spec. set (k := idx j) in *. rewrite wrap_id by (unfold inw; lia). rewrite widest_regs.
  destruct (Z.ltb_spec k vlmax) as [L|L].
  - destruct (Z.ltb_spec k (widest vs2 * (vlenb c / sew c))); [|lia].
    rewrite (read_elem_gen _ _ _ _ _ _ _ _ HC Fin) by (rewrite widest_regs; fold c; lia). cbn [obind]. do 2 f_equal.
    apply (elem_dis _ _ _ vd g _ g _ _ (j / (vlenb c / sew c))); try assumption. clear - L Fm Fs. nia.
  - destruct (Z.ltb_spec k (widest vs2 * (vlenb c / sew c))); [lia|reflexivity].
Qed.
Print Assumptions vrgather_partial.
(** vrgather.vv v4, v8, v6 at SEW=16, LMUL=2, vl=13 (unmasked), and vrgather.vx with index 3. *)
Example vrgather_case :
  config 16 2 16 13 /\ group 2 16 2 4 /\ group 2 16 2 8 /\ disjoint 4 2 8 2 /\ vlmax_of 16 2 16 = 16 /\
  (forall j, 0 <= j < 13 -> elem 16 (words [0; 0; 0; 0; 0; 0; 0; 0; 0; 0; 0; 0; 0x3000200010005; 0xf000700070007; 0xffff00400050fff0; 0; 0; 0]) 6 2 j < 16 \/
     widest 8 * (16 / 2) <= elem 16 (words [0; 0; 0; 0; 0; 0; 0; 0; 0; 0; 0; 0; 0x3000200010005; 0xf000700070007; 0xffff00400050fff0; 0; 0; 0]) 6 2 j < 2 ^ 32).
Proof.
  split; [apply demo_config; cbn; lia|]. split; [unfold group, nregs, emul8; cbn; lia|]. split; [unfold group, nregs, emul8; cbn; lia|].
  split; [unfold disjoint; lia|]. split; [reflexivity|].
  intros j Hj. set (m := words _). cbn [widest]. assert ((elem 16 m 6 2 j <? 16) || (64 <=? elem 16 m 6 2 j) && (elem 16 m 6 2 j <? 2 ^ 32) = true) as H.
  { revert j Hj. apply forall_zrange. vm_compute. reflexivity. }
  change (widest 8 * (16 / 2)) with 64. lia.
Qed.
Example vrgather_value :
  option_map (fun s => map (elem 16 (regs s) 4 2) (zrange 14)) (exec_gather (demo 2 16 13 1 0 false false) false 4 8 (Scalar 3) true)
  = Some [9245; 3591; 3591; 3591; 3591; 3591; 3591; 3591; 3591; 3591; 3591; 3591; 3591; 56019].
Proof. vm_compute. reflexivity. Qed.

(** C40 is false for vrgather: a masked instruction on two registers uses mask bit 0 for element 16; an
    index VLMAX reads the register after the group; a 64-bit index 2^32 reads element 0. *)
Theorem vrgather_refuted :
  (exists st, config 16 1 16 32 /\ sew (cfg st) = 1 /\ lmul8 (cfg st) = 16 /\ vl (cfg st) = 32 /\ vstart (cfg st) = 0 /\
     byte_mem (regs st) /\ mask_of 16 (regs st) false 16 = false /\
     exists st', exec_gather st false 4 8 (Scalar 0) false = Some st' /\ elem 16 (regs st') 4 1 16 <> elem 16 (regs st) 4 1 16) /\
  (exists st, config 16 1 8 16 /\ sew (cfg st) = 1 /\ lmul8 (cfg st) = 8 /\ vl (cfg st) = 16 /\ vstart (cfg st) = 0 /\
     byte_mem (regs st) /\ vlmax_of 16 1 8 = 16 /\
     exists st', exec_gather st false 4 2 (Scalar 16) true = Some st' /\ elem 16 (regs st') 4 1 0 <> 0) /\
  (exists st, config 16 8 8 2 /\ sew (cfg st) = 8 /\ lmul8 (cfg st) = 8 /\ vl (cfg st) = 2 /\ vstart (cfg st) = 0 /\
     byte_mem (regs st) /\ elem 16 (regs st) 1 8 0 = 2 ^ 32 /\
     exists st', exec_gather st false 4 2 (Vec 1) true = Some st' /\ elem 16 (regs st') 4 8 0 <> 0).
Proof.
  split; [|split].
  - exists (demo_w ([1; 0] ++ repeat 0 14 ++ repeat 9 4) 1 16 32 0). split; [apply demo_config; cbn; lia|].
    do 4 (split; [reflexivity|]). split; [apply words_byte|]. split; [reflexivity|]. apply some_prop. vm_compute. discriminate.
  - exists (demo_w ([0; 0; 0; 0; 0; 0; 7; 0]) 1 8 16 0). split; [apply demo_config; cbn; lia|].
    do 4 (split; [reflexivity|]). split; [apply words_byte|]. split; [reflexivity|]. apply some_prop. vm_compute. discriminate.
  - exists (demo_w ([0; 0; 2 ^ 32; 0; 5; 0]) 8 8 2 0). split; [apply demo_config; cbn; lia|].
    do 4 (split; [reflexivity|]). split; [apply words_byte|]. split; [reflexivity|]. apply some_prop. vm_compute. discriminate.
Qed.
Print Assumptions vrgather_refuted.

(** C40.  vslideup.vx/vi: active element j >= offset of the body becomes vs2[j - offset]; nothing else
    changes.  Missing: masked with vl above one register; offsets of 2^32 and more; vstart is
    not cleared when the offset exceeds VLMAX (refuted below). *)
Theorem vslideup_partial : forall st vd vs2 x vm,
  let c := cfg st in
  let g := nregs (sew c) (lmul8 c) (sew c) in
  let act := active_body (vlenb c) (regs st) vm (vstart c) (vl c) in
  config (vlenb c) (sew c) (lmul8 c) (vl c) -> vlmax c = vlmax_of (vlenb c) (sew c) (lmul8 c) ->
  byte_mem (regs st) -> vexc c = false -> 0 <= vstart c ->
  group (sew c) (lmul8 c) (sew c) vd -> group (sew c) (lmul8 c) (sew c) vs2 -> disjoint vd g vs2 g ->
  vm = true \/ vl c <= vlenb c / sew c ->
  0 <= x < 2 ^ 32 -> x <= vlmax c \/ vstart c = 0 ->
  exists st', exec_slideup st vd vs2 x vm = Some st' /\ vstart (cfg st') = 0 /\ vl (cfg st') = vl c /\ vexc (cfg st') = false /\
    elem_update (vlenb c) vd (sew c) (fun j => act j /\ x <= j)
      (slideup_spec (elem (vlenb c) (regs st) vs2 (sew c)) x) (regs st) (regs st').
Proof.
  intros st vd vs2 x vm c g act HC Hvm Hb Hx Hst HD H2 Hdis Hmk Hx32 Hs0.
  pose proof (get_facts _ _ _ _ _ HC HD) as [Fvb Fs Fin Fe Fe1 Fvl Fm Fm2 Fdiv]. fold g in Fm, Fdiv. fold c in Fvl, Fm, Fm2.
  destruct (vlmax_group _ _ _ _ _ HC H2) as (_ & Hnr & _). fold c in Hnr.
  rewrite <- Hvm in Fvl, Fm, Fm2, Hnr.
  unfold exec_slideup. cbv zeta. fold c. rewrite !(wrap_id 32) by (unfold inw; lia).
  destruct (Z.ltb_spec (vlmax c) x) as [L|L].
  - assert (vstart c = 0) as Hz by lia. exists st. split; [reflexivity|]. split; [exact Hz|]. split; [reflexivity|]. split; [exact Hx|].
    split; [|intros; reflexivity]. intros j ((Hj & _) & Hxj). lia.
  - rewrite (switch _ _ _ _ _ _ HC eq_refl).
    destruct (perm_update st vd vm (slide_elt (vlenb c) (sew c) (vlmax c) vs2 (sgn 32 x)) (fun j => act j /\ x <= j)
      (slideup_spec (elem (vlenb c) (regs st) vs2 (sew c)) x) HC HD Hx Hst Hmk) as (st' & E & E1 & E2).
    + intros j ((Hj & _) & _). exact Hj.
    + intros rf j Hj Hag. fold c in Hj, Hag |- *. unfold slide_elt. rewrite (sgn_id 32) by lia. cbv zeta.
      destruct (Z.leb_spec (- 2 ^ 31) (j - x)), (Z.ltb_spec (j - x) (2 ^ 31)); try lia. cbn [andb negb].
      destruct (Z.leb_spec 0 (j - x)); [|right; split; [intros (_ & H'); lia|reflexivity]].
      destruct (mask_of (vlenb c) (regs st) vm j) eqn:Em; [|right; split; [intros ((_ & Hm) & _); congruence|reflexivity]].
      left. split; [split; [split; [exact Hj|exact Em]|lia]|]. split; [|apply elem_inw; [exact Hb|lia]]. cbn [andb].
      destruct (Z.ltb_spec (j - x) (vlmax c)); [|lia].
      rewrite (read_elem_gen _ _ _ _ _ _ _ _ HC Fin) by (fold c; lia). cbn [obind]. unfold slideup_spec. do 2 f_equal.
      apply (elem_dis _ _ _ vd g _ g _ _ (j / (vlenb c / sew c))); try assumption; [|apply Fdiv; lia].
      assert (j - x < vlmax c) as L2 by lia. clear - L2 Fm Fs. nia.
    + exists st'. split; [exact E|]. rewrite E1. cbn [vstart vl vexc set_vstart]. split; [reflexivity|]. split; [reflexivity|]. split; [exact Hx|exact E2].
Qed.
Print Assumptions vslideup_partial.
(** vslideup.vi v4, v8, 5 at SEW=16, LMUL=2, vl=13, vstart=1. *)
Example vslideup_case : config 16 2 16 13 /\ group 2 16 2 4 /\ group 2 16 2 8 /\ disjoint 4 2 8 2 /\
  option_map (fun s => map (elem 16 (regs s) 4 2) (zrange 14)) (exec_slideup (demo 2 16 13 1 0 false false) 4 8 5 true) = Some [9245; 12843; 16441; 20039; 23637; 58589; 62187; 249; 3591; 7189; 10787; 14385; 17983; 56019].
Proof.
  split; [apply demo_config; cbn; lia|]. split; [unfold group, nregs, emul8; cbn; lia|]. split; [unfold group, nregs, emul8; cbn; lia|].
  split; [unfold disjoint; lia|]. vm_compute. reflexivity.
Qed.

(** C40.  vslidedown.vx/vi: active body element j becomes vs2[j + offset], or 0 if that is not below VLMAX;
    nothing else changes; vd may equal vs2.  Missing: masked with vl above one register; offsets
    of 2^31 - vl and more (refuted below). *)
Theorem vslidedown_partial : forall st vd vs2 x vm,
  let c := cfg st in
  let g := nregs (sew c) (lmul8 c) (sew c) in
  let vlmax' := vlmax_of (vlenb c) (sew c) (lmul8 c) in
  config (vlenb c) (sew c) (lmul8 c) (vl c) -> vlmax c = vlmax' ->
  byte_mem (regs st) -> vexc c = false -> 0 <= vstart c ->
  group (sew c) (lmul8 c) (sew c) vd -> group (sew c) (lmul8 c) (sew c) vs2 -> vd = vs2 \/ disjoint vd g vs2 g ->
  vm = true \/ vl c <= vlenb c / sew c ->
  0 <= x <= 2 ^ 31 - vl c -> x < 2 ^ 31 ->
  exists st', exec_slidedown st vd vs2 x vm = Some st' /\ cfg st' = set_vstart c 0 /\
    elem_update (vlenb c) vd (sew c) (active_body (vlenb c) (regs st) vm (vstart c) (vl c))
      (slidedown_spec vlmax' (elem (vlenb c) (regs st) vs2 (sew c)) x) (regs st) (regs st').
Proof.
  intros st vd vs2 x vm c g vlmax' HC Hvm Hb Hx Hst HD H2 Hdis Hmk Hx31 Hx31'.
  pose proof (get_facts _ _ _ _ _ HC HD) as [Fvb Fs Fin Fe Fe1 Fvl Fm Fm2 Fdiv]. fold g in Fm, Fdiv. fold c vlmax' in Fvl, Fm, Fm2.
  destruct (vlmax_group _ _ _ _ _ HC H2) as (_ & Hnr & _). fold c vlmax' in Hnr.
  unfold exec_slidedown. cbv zeta. fold c. rewrite !(wrap_id 32) by (unfold inw; lia).
  destruct (Z.eqb_spec x (2 ^ 31)); [lia|]. rewrite (switch _ _ _ _ _ _ HC eq_refl).
  apply perm_update; try assumption; [intros j (Hj & _); exact Hj|].
  intros rf j Hj Hag. fold c in Hj, Hag |- *. unfold slide_elt. rewrite (sgn_id 32) by lia. cbv zeta.
  replace (j - - x) with (j + x) by lia.
  destruct (Z.leb_spec (- 2 ^ 31) (j + x)), (Z.ltb_spec (j + x) (2 ^ 31)); try lia. cbn [andb negb].
  destruct (Z.leb_spec 0 (j + x)); [|lia].
  destruct (mask_of (vlenb c) (regs st) vm j) eqn:Em; [|right; split; [intros (_ & Hm); congruence|reflexivity]].
  left. split; [split; [exact Hj|exact Em]|]. cbn [andb]. unfold slidedown_spec. rewrite Hvm.
  destruct (Z.ltb_spec (j + x) vlmax') as [L|L].
  2: { split; [reflexivity|]. unfold inw. pose proof (pow2_pos (8 * sew c)). lia. }
  split; [|apply elem_inw; [exact Hb|lia]].
  rewrite (read_elem_gen _ _ _ _ _ _ _ _ HC Fin) by (fold c; lia). cbn [obind]. do 2 f_equal.
  destruct Hdis as [E|Hdis].
  - subst vs2. apply (elem_up _ _ _ _ _ (vlenb c / sew c) j); try assumption; lia.
  - apply (elem_dis _ _ _ vd g _ g _ _ (j / (vlenb c / sew c))); try assumption; [|apply Fdiv; lia]. clear - L Fm Fs. nia.
Qed.
Print Assumptions vslidedown_partial.
(** vslidedown.vi v4, v4, 5 at SEW=16, LMUL=2, vl=13. *)
Example vslidedown_case : config 16 2 16 13 /\ group 2 16 2 4 /\
  option_map (fun s => map (elem 16 (regs s) 4 2) (zrange 14)) (exec_slidedown (demo 2 16 13 0 0 false false) 4 4 5 true) = Some [27235; 30833; 34431; 38029; 41627; 45225; 48823; 52421; 56019; 59617; 63215; 0; 0; 56019].
Proof. split; [apply demo_config; cbn; lia|]. split; [unfold group, nregs, emul8; cbn; lia|]. vm_compute. reflexivity. Qed.

(** C40 is false for the slides: vslidedown.vx by 2^32 - 1 moves elements up instead of clearing them;
    by 2^31 it is undefined; a masked vslidedown of two registers writes a masked-off element;
    vslideup by more than VLMAX leaves vstart. *)
Theorem vslide_refuted :
  (exists st, config 16 1 8 16 /\ sew (cfg st) = 1 /\ lmul8 (cfg st) = 8 /\ vl (cfg st) = 16 /\ vstart (cfg st) = 0 /\
     byte_mem (regs st) /\ exists st', exec_slidedown st 4 2 (2 ^ 32 - 1) true = Some st' /\ elem 16 (regs st') 4 1 1 <> 0) /\
  (forall st vd vs2 vm, exec_slidedown st vd vs2 (2 ^ 31) vm = None) /\
  (exists st, config 16 1 16 32 /\ sew (cfg st) = 1 /\ lmul8 (cfg st) = 16 /\ vl (cfg st) = 32 /\ vstart (cfg st) = 0 /\
     byte_mem (regs st) /\ mask_of 16 (regs st) false 16 = false /\
     exists st', exec_slidedown st 4 8 1 false = Some st' /\ elem 16 (regs st') 4 1 16 <> elem 16 (regs st) 4 1 16) /\
  (exists st, config 16 1 8 16 /\ sew (cfg st) = 1 /\ lmul8 (cfg st) = 8 /\ vl (cfg st) = 16 /\ vstart (cfg st) = 3 /\
     exec_slideup st 4 2 17 true = Some st).
Proof.
  split; [|split; [|split]].
  - exists (demo_w ([0; 0; 0; 0; 7; 0]) 1 8 16 0). split; [apply demo_config; cbn; lia|].
    do 4 (split; [reflexivity|]). split; [apply words_byte|]. apply some_prop. vm_compute. discriminate.
  - reflexivity.
  - exists (demo_w ([1; 0] ++ repeat 0 14 ++ [0; 0; 0x900; 0]) 1 16 32 0). split; [apply demo_config; cbn; lia|].
    do 4 (split; [reflexivity|]). split; [apply words_byte|]. split; [reflexivity|]. apply some_prop. vm_compute. discriminate.
  - exists (demo_w [] 1 8 16 3). split; [apply demo_config; cbn; lia|]. do 4 (split; [reflexivity|]). reflexivity.
Qed.
Print Assumptions vslide_refuted.

(** C40.  vslide1up.vx and vslide1down.vx.  The written elements are the active body elements; all of
    them get the specified value, except element 1 of vslide1up and, when vl < VLMAX, the last element
    of vslide1down (refuted below).  Missing also: masked with vl above one register. *)
Theorem vslide1_partial : forall st (up : bool) vd vs2 x vm,
  let c := cfg st in
  let g := nregs (sew c) (lmul8 c) (sew c) in
  let vlmax' := vlmax_of (vlenb c) (sew c) (lmul8 c) in
  let act := active_body (vlenb c) (regs st) vm (vstart c) (vl c) in
  let src := elem (vlenb c) (regs st) vs2 (sew c) in
  config (vlenb c) (sew c) (lmul8 c) (vl c) -> vlmax c = vlmax' ->
  byte_mem (regs st) -> vexc c = false -> 0 <= vstart c ->
  group (sew c) (lmul8 c) (sew c) vd -> group (sew c) (lmul8 c) (sew c) vs2 ->
  (up = false /\ vd = vs2) \/ disjoint vd g vs2 g ->
  vm = true \/ vl c <= vlenb c / sew c ->
  exists st', exec_slide1 st up vd vs2 x vm = Some st' /\ cfg st' = set_vstart c 0 /\
    (forall j, act j -> up = true -> j <> 1 -> elem (vlenb c) (regs st') vd (sew c) j = slide1up_spec src (wrap (8 * sew c) x) j) /\
    (forall j, act j -> up = false -> j <> vl c - 1 \/ vl c = vlmax' ->
       elem (vlenb c) (regs st') vd (sew c) j = slide1down_spec (vl c) src (wrap (8 * sew c) x) j) /\
    (forall a, (forall j, act j -> ~ in_elem (vlenb c) vd (sew c) j a) -> regs st' a = regs st a).
Proof.
  intros st up vd vs2 x vm c g vlmax' act src HC Hvm Hb Hx Hst HD H2 Hdis Hmk.
  pose proof (get_facts _ _ _ _ _ HC HD) as [Fvb Fs Fin Fe Fe1 Fvl Fm Fm2 Fdiv]. fold g in Fm, Fdiv. fold c vlmax' in Fvl, Fm, Fm2.
  destruct (vlmax_group _ _ _ _ _ HC H2) as (_ & Hnr & _). fold c vlmax' in Hnr.
  unfold exec_slide1. cbv zeta. fold c. rewrite (switch _ _ _ _ _ _ HC eq_refl). rewrite Hvm.
  set (off := if up then 1 else -1).
  set (f := fun j => if (0 <? j - off) && (j - off <? vlmax') then src (j - off) else wrap (8 * sew c) x).
  destruct (perm_update st vd vm (slide1_elt (vlenb c) (sew c) vlmax' vs2 (wrap (8 * sew c) x) off) act f HC HD Hx Hst Hmk)
    as (st' & E & E1 & E2 & E3).
  - intros j (Hj & _). exact Hj.
  - intros rf j Hj Hag. fold c in Hj, Hag |- *. unfold slide1_elt.
    destruct (mask_of (vlenb c) (regs st) vm j) eqn:Em; [|right; split; [intros (_ & Hm); congruence|reflexivity]].
    left. split; [split; [exact Hj|exact Em]|]. cbv zeta. unfold f.
    destruct (Z.ltb_spec 0 (j - off)) as [L1|L1]; cbn [andb]; [|split; [reflexivity|apply wrap_range; lia]].
    destruct (Z.ltb_spec (j - off) vlmax') as [L2|L2]; [|split; [reflexivity|apply wrap_range; lia]].
    split; [|apply elem_inw; [exact Hb|lia]].
    rewrite (read_elem_gen _ _ _ _ _ _ _ _ HC Fin) by (fold c; lia). cbn [obind]. do 2 f_equal.
    destruct Hdis as [(Eu & Ev)|Hdis].
    + subst vs2. unfold src. apply (elem_up _ _ _ _ _ (vlenb c / sew c) j); try assumption. unfold off; rewrite Eu; clear - Hj Hst; lia.
    + apply (elem_dis _ _ _ vd g _ g _ _ (j / (vlenb c / sew c))); try assumption; [lia| |apply Fdiv; lia]. clear - L2 Fm Fs. nia.
  - fold c in E2, E3. exists st'. split; [exact E|]. split; [exact E1|]. split; [|split; [|exact E3]].
    + intros j Ha Eu Hj1. rewrite E2 by exact Ha. unfold f, off, slide1up_spec. rewrite Eu. destruct Ha as (Hj & _).
      destruct (Z.eqb_spec j 0); [destruct (Z.ltb_spec 0 (j - 1)); [lia|reflexivity]|].
      destruct (Z.ltb_spec 0 (j - 1)), (Z.ltb_spec (j - 1) vlmax'); try lia. reflexivity.
    + intros j Ha Eu Hj1. rewrite E2 by exact Ha. unfold f, off, slide1down_spec. rewrite Eu. destruct Ha as (Hj & _).
      replace (j - -1) with (j + 1) by lia.
      destruct (Z.ltb_spec 0 (j + 1)), (Z.ltb_spec (j + 1) vlmax'), (Z.eqb_spec j (vl c - 1)); try lia; try reflexivity.
Qed.
Print Assumptions vslide1_partial.
Example vslide1_case : config 16 2 16 13 /\ group 2 16 2 4 /\ group 2 16 2 8 /\ disjoint 4 2 8 2 /\
  option_map (fun s => map (elem 16 (regs s) 4 2) (zrange 14)) (exec_slide1 (demo 2 16 13 0 0 false false) false 4 8 5 true) = Some [62187; 249; 3591; 7189; 10787; 14385; 17983; 21581; 25179; 28777; 32375; 35973; 39571; 56019].
Proof.
  split; [apply demo_config; cbn; lia|]. split; [unfold group, nregs, emul8; cbn; lia|]. split; [unfold group, nregs, emul8; cbn; lia|].
  split; [unfold disjoint; lia|]. vm_compute. reflexivity.
Qed.
(** C40 is false for vslide1up, which puts the scalar in element 1 as well, and for vslide1down with
    vl < VLMAX, which puts vs2[vl] in the last element. *)
Theorem vslide1_refuted :
  (exists st, config 16 1 8 4 /\ sew (cfg st) = 1 /\ lmul8 (cfg st) = 8 /\ vl (cfg st) = 4 /\ vstart (cfg st) = 0 /\
     byte_mem (regs st) /\ exists st', exec_slide1 st true 4 2 9 true = Some st' /\
     elem 16 (regs st') 4 1 1 <> slide1up_spec (elem 16 (regs st) 2 1) 9 1) /\
  (exists st, config 16 1 8 4 /\ sew (cfg st) = 1 /\ lmul8 (cfg st) = 8 /\ vl (cfg st) = 4 /\ vstart (cfg st) = 0 /\
     byte_mem (regs st) /\ exists st', exec_slide1 st false 4 2 9 true = Some st' /\
     elem 16 (regs st') 4 1 3 <> slide1down_spec 4 (elem 16 (regs st) 2 1) 9 3).
Proof.
  split.
  - exists (demo_w ([0; 0; 0; 0; 7; 0]) 1 8 4 0). split; [apply demo_config; cbn; lia|].
    do 4 (split; [reflexivity|]). split; [apply words_byte|]. apply some_prop. vm_compute. discriminate.
  - exists (demo_w ([0; 0; 0; 0; 7; 0]) 1 8 4 0). split; [apply demo_config; cbn; lia|].
    do 4 (split; [reflexivity|]). split; [apply words_byte|]. apply some_prop. vm_compute. discriminate.
Qed.
Print Assumptions vslide1_refuted.

(** C40.  vcompress.vm with vstart = 0: element k of vd becomes the k-th selected element of vs2; nothing
    else changes.  Missing: vstart > 0 must raise (refuted below). *)
Theorem vcompress_partial : forall st vd vs2 vs1,
  let c := cfg st in
  let g := nregs (sew c) (lmul8 c) (sew c) in
  let l := selected (vlenb c) (regs st) vs1 (vl c) in
  config (vlenb c) (sew c) (lmul8 c) (vl c) -> byte_mem (regs st) -> vexc c = false -> vstart c = 0 ->
  group (sew c) (lmul8 c) (sew c) vd -> group (sew c) (lmul8 c) (sew c) vs2 -> disjoint vd g vs2 g -> disjoint vd g vs1 1 ->
  exists st', exec_compress st vd vs2 vs1 = Some st' /\ cfg st' = set_vstart c 0 /\
    elem_update (vlenb c) vd (sew c) (fun k => 0 <= k < Z.of_nat (length l))
      (fun k => elem (vlenb c) (regs st) vs2 (sew c) (nth (Z.to_nat k) l 0)) (regs st) (regs st').
Proof.
  intros st vd vs2 vs1 c g l HC Hb Hx Hst HD H2 Hdis _.
  pose proof (get_facts _ _ _ _ _ HC HD) as [Fvb Fs Fin Fe Fe1 Fvl Fm Fm2 Fdiv]. fold g in Fm, Fdiv. fold c in Fvl, Fm, Fm2.
  pose proof (num_regs_ge _ _ _ _ _ _ HC HD) as Hnr. fold c g in Hnr.
  destruct (vlmax_group _ _ _ _ _ HC HD) as (Hvg & _). fold c g in Hvg.
  pose proof (group_holds _ _ _ _ _ _ HC HD) as (_ & Hg1). fold c g in Hg1.
  unfold exec_compress. rewrite (switch _ _ _ _ _ _ HC eq_refl). cbv zeta. fold c. rewrite Hx, Hst.
  assert ((vl c + vlenb c / sew c - 1) / (vlenb c / sew c) <= g) as Hmr.
  { apply Z.lt_succ_r. apply Z.div_lt_upper_bound; [lia|]. set (e := vlenb c / sew c) in *. clearbody e. clear - Hvg Fvl Fe1. nia. }
  destruct (Z.ltb_spec (num_regs vd) (Z.max 1 ((vl c + vlenb c / sew c - 1) / (vlenb c / sew c)))); [lia|].
  set (sel := src_bit (vlenb c) (regs st) vs1).
  assert (l = sels sel (vl c)) as El.
  { unfold l, selected, sels. apply filter_ext_range. intros j Hj. symmetry. apply src_bit_ok; lia. }
  destruct (compress_spec (vlenb c) (sew c) (vlenb c / sew c) vd vs2 g (vl c) sel (regs st) Fs Fe Fe1) with
    (fuel := Z.to_nat (vl c)) (rf := regs st) (cur := @None (Z * mem)) (i := 0) (l := @nil Z) as (rf' & E & P1 & P2);
    try reflexivity; try lia; try exact Hdis; try exact I.
  - intros rf j Hj. apply (read_elem_ok _ _ _ _ _ _ _ _ HC H2). exact Hj.
  - split; [intros k Hk; cbn in Hk; lia|]. reflexivity.
  - cbn [length] in E. change (Z.of_nat 0) with 0 in E. rewrite E. cbn [obind].
    eexists. split; [reflexivity|]. split; [reflexivity|]. cbn [regs].
    rewrite Z.max_r in P1, P2 by lia. rewrite <- El in P1, P2. split.
    + intros k Hk. rewrite <- (Z2Nat.id k) at 1 by lia. rewrite P1 by lia. apply wrap_id, elem_inw; [exact Hb|lia].
    + intros a Ha. apply P2. intros Hr. set (k := (a - vd * vlenb c) / sew c).
      apply (Ha k).
      * split; [apply Z.div_pos; lia|]. apply Z.div_lt_upper_bound; lia.
      * unfold in_elem. pose proof (Z.div_mod (a - vd * vlenb c) (sew c) ltac:(lia)) as D1.
        pose proof (Z.mod_pos_bound (a - vd * vlenb c) (sew c) ltac:(lia)) as D2.
        fold k in D1. clear - D1 D2. nia.
Qed.
Print Assumptions vcompress_partial.
Example vcompress_case : config 16 2 16 13 /\ group 2 16 2 4 /\ group 2 16 2 8 /\ disjoint 4 2 8 2 /\ disjoint 4 2 1 1 /\
  selected 16 demo_regs 1 13 = [0; 2; 3; 6; 7; 10; 12] /\
  option_map (fun s => map (elem 16 (regs s) 4 2) (zrange 14)) (exec_compress (demo 2 16 13 0 0 false false) 4 8 1) = Some [58589; 249; 3591; 14385; 17983; 28777; 35973; 34431; 38029; 41627; 45225; 48823; 52421; 56019].
Proof.
  split; [apply demo_config; cbn; lia|]. split; [unfold group, nregs, emul8; cbn; lia|]. split; [unfold group, nregs, emul8; cbn; lia|].
  split; [unfold disjoint; lia|]. split; [unfold disjoint; lia|]. split; vm_compute; reflexivity.
Qed.
(** C40 is false for vcompress.vm with vstart = 2: no exception, and the selected elements below vstart are
    dropped. *)
Theorem vcompress_refuted : exists st,
  config 16 1 8 4 /\ sew (cfg st) = 1 /\ lmul8 (cfg st) = 8 /\ vl (cfg st) = 4 /\ vstart (cfg st) = 2 /\ vexc (cfg st) = false /\
  selected 16 (regs st) 1 4 = [0; 2] /\
  exists st', exec_compress st 4 2 1 = Some st' /\ vexc (cfg st') = false /\
  elem 16 (regs st') 4 1 0 = elem 16 (regs st) 2 1 2 /\ elem 16 (regs st) 2 1 2 <> elem 16 (regs st) 2 1 0.
Proof.
  exists (demo_w ([0; 0; 5; 0; 0x070605; 0]) 1 8 4 2). split; [apply demo_config; cbn; lia|].
  do 6 (split; [reflexivity|]). apply some_prop. vm_compute. split; [reflexivity|]. split; [reflexivity|discriminate].
Qed.
Print Assumptions vcompress_refuted.
