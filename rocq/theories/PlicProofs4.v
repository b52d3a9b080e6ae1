(** Main lemmas for C47 and C48. *)
From Coq Require Import ZArith Bool List Lia.
From Verif Require Import Bits PlicSpec PlicModel PlicHist PlicProofs PlicProofs2 PlicProofs3.
Import ListNotations.
Local Open Scope Z_scope.

Lemma load_one k a n k' v : load k a n = Some (k', v) -> k' = k \/
  exists c id, 0 <= c < p_nc k /\ claim k c = Some (k', id).
Proof.
  unfold load. intros E. pose proof (Z.mod_pos_bound a 0x1000000 ltac:(lia)) as B. rewrite off_mod in E. set (off := a mod 0x1000000) in *.
  assert (forall k off k' v, 0x200000 <= off -> read k off = Some (k', v) -> forall c, c = (off - 0x200000) / 0x1000 -> 0 <= c) as Pos.
  { intros ? o ? ? H _ c ->. apply Z.div_pos; lia. }
  destruct (_ || _).
  - destruct (read k off) as [[k1 x]|] eqn:R; [|discriminate]. assert (k1 = k') as <- by congruence.
    destruct (read_cases _ _ _ _ R) as [->|(c & H1 & H2 & H3 & H4 & C)]; [left; reflexivity|right]. exists c, x. split; [split; [eapply Pos; eauto|exact H4]|exact C].
  - destruct (n =? 8); [|left; congruence].
    destruct (read k off) as [[k1 x]|] eqn:R; [|discriminate]. destruct (read k1 (off + 4)) as [[k2 y]|] eqn:R2; [|discriminate]. assert (k2 = k') as <- by congruence.
    destruct (read_cases _ _ _ _ R) as [->|(c & H1 & H2 & H3 & H4 & C)].
    + destruct (read_cases _ _ _ _ R2) as [->|(c & H1 & H2 & H3 & H4 & C)]; [left; reflexivity|right]. exists c, y. split; [split; [eapply Pos; eauto|exact H4]|exact C].
    + right. exists c, x. split; [split; [eapply Pos; eauto|exact H4]|].
      destruct (read_cases _ _ _ _ R2) as [->|(c2 & G1 & G2 & G3 & G4 & C2)]; [exact C|]. exfalso. clear - H3 G3.
      replace (off + 4 - 0x200000) with ((off - 0x200000) + 4) in G3 by lia. rewrite <- Zplus_mod_idemp_l, H3 in G3. discriminate.
Qed.
Lemma step_const k o k' v : good k o -> minv k -> cinv k -> step k o = Some (k', v) -> p_ns k' = p_ns k /\ p_nc k' = p_nc k.
Proof.
  intros G M I E. destruct o as [ss cs|c|s x l|a n|a n x]; cbn [step] in E.
  - destruct (configure_effect k ss cs) as ((A & A1 & _) & _). destruct (configure k ss cs) as [k1 ok]. cbn [fst] in *. assert (k1 = k') as <- by congruence. auto.
  - destruct (_ || _); [discriminate|]. apply some_eq in E. injection E as -> _. auto.
  - apply some_eq in E. injection E as -> _. destruct (set_interrupt_frame k s x l) as (_ & _ & _ & _ & A & B & _). auto.
  - destruct (load_one _ _ _ _ _ E) as [->|(c & id & Hc & C)]; [auto|]. destruct (claim_spec _ _ _ _ I C) as [(-> & _)|(_ & _ & A & B & _)]; auto.
  - destruct (store k a n x) as [k1|] eqn:S; [|discriminate]. assert (k1 = k') as -> by congruence. clear E.
    destruct (store_wrote _ _ _ _ _ S) as (y & Hy & W). destruct G as [G1 G2]. destruct W as [|s Es Hs Ho|k' H|k' H W|c k' Hc Ha W|c Hc Ha].
    + auto.
    + rewrite write_priority_eq; [auto|assumption|rewrite <- Es; lia|intros; eapply G2; eassumption].
    + lia.
    + destruct (minv_enable k _ y k' M Hy W) as ((A & B & _) & _). auto.
    + destruct (threshold_effect k c y k' W) as ((A & B & _) & _). auto.
    + destruct (complete_frame k c y) as (_ & _ & _ & _ & A & B & _). auto.
Qed.
Lemma run_const l : forall k k' vs, all_good k l -> run k l = Some (k', vs) -> cinv k -> minv k -> p_ns k' = p_ns k /\ p_nc k' = p_nc k.
Proof.
  induction l as [|o l IH]; intros k k' vs G E I M; cbn [run all_good] in *.
  - assert (k = k') as <- by congruence. auto.
  - destruct G as [G1 G2]. destruct (step k o) as [[k1 v]|] eqn:S; [|discriminate]. destruct (step_inv _ _ _ _ G1 S I M) as [I1 M1]. destruct (step_const _ _ _ _ G1 M I S).
    destruct (run k1 l) as [[k2 vs2]|] eqn:R; [|discriminate]. assert (k2 = k') as <- by congruence. destruct (IH _ _ _ G2 R I1 M1). split; congruence.
Qed.
Lemma reach_const ns nc l k : reach ns nc l k -> p_ns k = ns /\ p_nc k = nc.
Proof. intros (G & vs & E). destruct (init_cinv ns nc) as [I M]. apply (run_const l (init ns nc) k vs); assumption. Qed.

Lemma claim_load k c : 0 <= c < p_nc k -> c < 0xe00 ->
  load k (a_claim c) 4 = match claim k c with Some (k', id) => Some (k', wrap 32 id) | None => None end.
Proof.
  intros Hc Hm. unfold load. rewrite off_mod. unfold a_claim. rewrite Z.mod_small by lia. cbn [Z.eqb Pos.eqb orb]. change (8 * 4) with 32. unfold read.
  set (off := 2097152 + 4096 * c + 4).
  destruct (Z.ltb_spec off 0x1000); [lia|]. destruct (Z.ltb_spec off 0x2000); [lia|]. destruct (Z.ltb_spec off 0x200000); [lia|].
  assert (Z.shiftr (off - 0x200000) 12 = c) as ->.
  { rewrite Z.shiftr_div_pow2 by lia. change (2 ^ 12) with 4096. replace (off - 0x200000) with (c * 4096 + 4) by lia. rewrite Z.div_add_l, Z.div_small by lia. lia. }
  assert (Z.land (off - 0x200000) 0xfff = 4) as ->.
  { change 0xfff with (Z.ones 12). rewrite Z.land_ones by lia. change (2 ^ 12) with 4096. replace (off - 0x200000) with (4 + c * 4096) by lia. rewrite Z.mod_add, Z.mod_small by lia. reflexivity. }
  destruct (Z.leb_spec (p_nc k) c); [lia|]. cbn [Z.eqb Pos.eqb]. destruct (claim k c) as [[k' id]|]; reflexivity.
Qed.
Lemma sources_in k c s : In s (sources_of k c) <-> In (s, c) (p_map k).
Proof.
  unfold sources_of. rewrite in_map_iff. split.
  - intros ([a b] & E & H). apply filter_In in H as [H1 H2]. cbn [fst snd] in *. apply Z.eqb_eq in H2. subst. exact H1.
  - intros H. exists (s, c). split; [reflexivity|]. apply filter_In. split; [exact H|apply Z.eqb_refl].
Qed.
Lemma contexts_in k c s : In c (contexts_of k s) <-> In (s, c) (p_map k).
Proof.
  unfold contexts_of. rewrite in_map_iff. split.
  - intros ([a b] & E & H). apply filter_In in H as [H1 H2]. cbn [fst snd] in *. apply Z.eqb_eq in H2. subst. exact H1.
  - intros H. exists (s, c). split; [reflexivity|]. apply filter_In. split; [exact H|apply Z.eqb_refl].
Qed.
Lemma cand_eligible k c s : minv k -> cand k c s <-> eligible k c s.
Proof. intros M. unfold cand, eligible. rewrite sources_in, (m_en k M). reflexivity. Qed.
Lemma claim_full ns nc l k c k' id : reach ns nc l k -> ns < 2 ^ 31 -> 0 <= c < nc -> c < 0xe00 -> load k (a_claim c) 4 = Some (k', id) -> is_claim k c k' id.
Proof.
  intros R Hn Hc Hm E. destruct (reach_inv _ _ _ _ R) as [I M]. destruct (reach_const _ _ _ _ R) as [En Ec].
  rewrite claim_load in E by lia. destruct (claim k c) as [[k1 i]|] eqn:C; [|discriminate]. assert (k1 = k' /\ wrap 32 i = id) as [-> W] by (split; congruence).
  destruct (claim_spec _ _ _ _ I C) as [(_ & _ & H)|H]; [lia|].
  assert (wrap 32 i = i) as Wi.
  { destruct H as (_ & _ & _ & _ & _ & _ & _ & _ & _ & _ & _ & _ & [[-> _]|[_ [[_ P] _]]]); [reflexivity|]. apply wrap_id. pose proof (i_pos k I i P). unfold inw. lia. }
  rewrite Wi in W. subst i. exact H.
Qed.
Lemma claim_main ns nc l k c k' id : reach ns nc l k -> ns < 2 ^ 31 -> 0 <= c < nc -> c < 0xe00 -> load k (a_claim c) 4 = Some (k', id) ->
  ((id = 0 /\ none_eligible (eligible k c) (p_prio k)) \/ (id <> 0 /\ best (eligible k c) (p_prio k) id)) /\
  (forall s, is_pending k' s = is_pending k s && negb (s =? id)) /\
  p_prio k' = p_prio k /\ p_thr k' = p_thr k /\ p_en k' = p_en k.
Proof.
  intros R Hn Hc Hm E. destruct (reach_inv _ _ _ _ R) as [I M].
  destruct (claim_full _ _ _ _ _ _ _ R Hn Hc Hm E) as (_ & P & _ & _ & _ & _ & Pr & En & Th & _ & _ & _ & B). split; [|split; [|auto]].
  - destruct B as [[-> B]|[D (B1 & B2 & B3)]]; [left|right].
    + split; [reflexivity|]. intros s H. apply B, cand_eligible; assumption.
    + split; [exact D|]. split; [apply cand_eligible; assumption|]. split; [exact B2|]. intros s H. apply B3, cand_eligible; assumption.
  - intros s. rewrite P. destruct (Z.eqb_spec id 0) as [->|]; [|rewrite andb_true_r; reflexivity]. rewrite andb_false_r. cbn [negb]. destruct (Z.eqb_spec s 0) as [->|]; [|reflexivity].
    destruct (is_pending k 0) eqn:Q; [|reflexivity]. pose proof (i_pos k I 0 Q). lia.
Qed.

(** At most one delivery until completion. *)
Definition busy (k : plic) (s c : Z) : Prop := p_ready k s = false /\ is_pending k s = false /\ forall d, p_cc k d = s -> d = c.
Lemma busy_spp k s c t : busy k s c -> t <> s -> busy (set_plic_pending k t) s c.
Proof.
  intros (B1 & B2 & B3) D. destruct (spp_effect k t) as [(_ & _ & R & _ & _ & _ & _ & C & _) P]. split; [rewrite R; exact B1|]. split; [|rewrite C; exact B3].
  rewrite P, B2. destruct (Z.eqb_spec s t); [congruence|reflexivity].
Qed.
Lemma busy_core k k' s c : core_same k k' -> busy k s c -> busy k' s c.
Proof. intros (_ & _ & R & _ & _ & P & C & _) (B1 & B2 & B3). split; [rewrite R; exact B1|]. split; [rewrite (same_pend _ _ P); exact B2|rewrite C; exact B3]. Qed.
Lemma busy_step k o k' v s c : good k o -> cinv k -> minv k -> step k o = Some (k', v) -> 0 < s -> ~ completes c o -> busy k s c -> busy k' s c.
Proof.
  intros G I M E Hs NC B. pose proof B as (B1 & B2 & B3). destruct o as [ss cs|d|t x l|a n|a n x]; cbn [step] in E.
  - destruct (configure_effect k ss cs) as ((_ & _ & R & _ & P & C & _) & _). destruct (configure k ss cs) as [k1 ok]. cbn [fst] in *. assert (k1 = k') as <- by congruence.
    split; [rewrite R; exact B1|]. split; [rewrite (same_pend _ _ P); exact B2|rewrite C; exact B3].
  - destruct (_ || _); [discriminate|]. apply some_eq in E. injection E as -> _. exact B.
  - apply some_eq in E. injection E as -> _. unfold set_interrupt. destruct (_ || _); [exact B|]. destruct (_ && _); [exact B|].
    assert (forall f, busy (set_gw k (p_ready k) f) s c) as Gw by (intros f; exact B).
    destruct (p_ready k t) eqn:Rt; cbn [negb orb]; [|destruct l; [apply Gw|exact B]]. destruct x; cbn [negb]; [|destruct l; [apply Gw|exact B]].
    assert (t <> s) as D by congruence. destruct (_ =? 0); [destruct l; [apply Gw|exact B]|]. apply busy_spp; [|exact D].
    destruct l; (split; [cbn [p_ready set_gw]; rewrite upd_other by congruence; exact B1|]; split; [exact B2|exact B3]).
  - destruct (load_one _ _ _ _ _ E) as [->|(d & id & Hd & C)]; [exact B|]. destruct (claim_spec _ _ _ _ I C) as [(-> & _)|H]; [exact B|].
    destruct H as (_ & P & _ & _ & R & _ & _ & _ & _ & _ & _ & Cc & Bst). split; [rewrite R; exact B1|]. split; [rewrite P, B2; reflexivity|].
    intros e He. rewrite Cc in He. destruct (Z.eqb_spec id 0); [apply B3, He|]. destruct Bst as [[Z0 _]|[_ [[_ Pi] _]]]; [contradiction|].
    unfold upd in He. destruct (Z.eqb_spec e d); [|apply B3, He]. congruence.
  - destruct (store k a n x) as [k1|] eqn:S; [|discriminate]. assert (k1 = k') as -> by congruence. clear E.
    destruct (store_wrote _ _ _ _ _ S) as (y & Hy & W). destruct G as [G1 G2]. destruct W as [|t Es Ht Ho|k' H|k' H W|d k' Hc Ha W|d Hc Ha].
    + exact B.
    + rewrite write_priority_eq; [exact B|assumption|rewrite <- Es; lia|intros; eapply G2; eassumption].
    + lia.
    + destruct (minv_enable k _ y k' M Hy W) as (Cs & _). eapply busy_core; eassumption.
    + destruct (threshold_effect k d y k' W) as (Cs & _). eapply busy_core; eassumption.
    + assert (d <> c) as Dc by (intros ->; apply NC; exact Ha). unfold complete. destruct (_ || _); [exact B|]. destruct (negb _); [exact B|].
      assert (p_cc k d <> s) as Ds by (intros H; apply Dc, B3, H). set (k1 := set_cc k (upd (p_cc k) d 0)).
      assert (busy k1 s c) as Bk.
      { split; [exact B1|]. split; [exact B2|]. intros e. cbn [k1 p_cc set_cc]. unfold upd. destruct (Z.eqb_spec e d); [lia|]. apply B3. }
      destruct (_ && _); [apply busy_spp; assumption|]. destruct Bk as (K1 & K2 & K3). split; [|split; [exact K2|exact K3]].
      cbn [p_ready set_gw]. rewrite upd_other by congruence. exact K1.
Qed.
Lemma busy_run l : forall k k' vs s c, all_good k l -> cinv k -> minv k -> run k l = Some (k', vs) -> 0 < s -> Forall (fun o => ~ completes c o) l -> busy k s c -> busy k' s c /\ cinv k' /\ minv k'.
Proof.
  induction l as [|o l IH]; intros k k' vs s c G I M E Hs F B; cbn [run all_good] in *.
  - assert (k = k') as <- by congruence. auto.
  - destruct G as [G1 G2]. inversion F as [|? ? F1 F2]; subst. destruct (step k o) as [[k1 v]|] eqn:S; [|discriminate]. destruct (step_inv _ _ _ _ G1 S I M) as [I1 M1].
    destruct (run k1 l) as [[k2 vs2]|] eqn:R; [|discriminate]. assert (k2 = k') as <- by congruence. eapply IH; try eassumption. eapply busy_step; eassumption.
Qed.
Lemma run_app l1 : forall l2 k k2 vs, run k (l1 ++ l2) = Some (k2, vs) -> exists k1 vs1 vs2, run k l1 = Some (k1, vs1) /\ run k1 l2 = Some (k2, vs2) /\ vs = vs1 ++ vs2.
Proof.
  induction l1 as [|o l1 IH]; intros l2 k k2 vs E; cbn [app run] in *.
  - exists k, [], vs. auto.
  - destruct (step k o) as [[k1 v]|]; [|discriminate]. destruct (run k1 (l1 ++ l2)) as [[k3 vs3]|] eqn:R; [|discriminate]. assert (k3 = k2 /\ v :: vs3 = vs) as [-> <-] by (split; congruence).
    destruct (IH _ _ _ _ R) as (ka & va & vb & A & B & ->). exists ka, (v :: va), vb. rewrite A. auto.
Qed.
Lemma all_good_app l1 : forall l2 k k1 vs, all_good k (l1 ++ l2) -> run k l1 = Some (k1, vs) -> all_good k l1 /\ all_good k1 l2.
Proof.
  induction l1 as [|o l1 IH]; intros l2 k k1 vs G E; cbn [app run all_good] in *.
  - assert (k = k1) as <- by congruence. auto.
  - destruct G as [G1 G2]. destruct (step k o) as [[ka v]|]; [|discriminate]. destruct (run ka l1) as [[kb vb]|] eqn:R; [|discriminate]. assert (kb = k1) as <- by congruence.
    destruct (IH _ _ _ _ G2 R). auto.
Qed.
Lemma once_main ns nc l1 c l2 k k1 k2 s d k3 id : ns < 2 ^ 31 -> 0 <= c < nc -> c < 0xe00 -> 0 <= d < nc -> d < 0xe00 ->
  reach ns nc l1 k -> load k (a_claim c) 4 = Some (k1, s) -> s <> 0 ->
  reach ns nc (l1 ++ Load (a_claim c) 4 :: l2) k2 ->
  Forall (fun o => ~ completes c o) l2 ->
  load k2 (a_claim d) 4 = Some (k3, id) -> id <> s.
Proof.
  intros Hn Hc Hm Hd Hm' R E Hs R2 F E2. pose proof R as (G & vs & Er). pose proof R2 as (G2 & vs2 & Er2).
  destruct (run_app _ _ _ _ _ Er2) as (ka & va & vb & Ea & Eb & _). assert (ka = k) as -> by congruence.
  destruct (all_good_app _ _ _ _ _ G2 Ea) as [_ Gb]. cbn [run step all_good] in Eb, Gb. rewrite E in Eb, Gb. destruct Gb as [_ Gb].
  destruct (run k1 l2) as [[kb vc]|] eqn:Rb; [|discriminate]. assert (kb = k2) as -> by congruence.
  destruct (reach_inv _ _ _ _ R) as [I M]. pose proof (claim_full _ _ _ _ _ _ _ R Hn Hc Hm E) as Cl.
  pose proof (cinv_claim _ _ _ _ I Cl) as I1. destruct Cl as (_ & P & _ & _ & Rd & _ & _ & En & _ & _ & Mp & Cc & [[Z0 _]|[_ [[_ Ps] _]]]); [contradiction|].
  pose proof (i_pos k I s Ps) as Hs0.
  assert (minv k1) as M1 by (apply (same_minv k); assumption).
  assert (busy k1 s c) as B.
  { split; [|split].
    - rewrite Rd. destruct (p_ready k s) eqn:Q; [|reflexivity]. destruct (i_ready k I s ltac:(lia) Q). congruence.
    - rewrite P, Ps, Z.eqb_refl. destruct (Z.eqb_spec s 0); [contradiction|reflexivity].
    - intros e. rewrite Cc. destruct (Z.eqb_spec s 0); [contradiction|]. unfold upd. destruct (Z.eqb_spec e c); [auto|]. intros H. exfalso. exact (i_pend k I s Ps e H). }
  destruct (busy_run l2 k1 k2 vc s c Gb I1 M1 Rb ltac:(lia) F B) as ((_ & B2 & _) & _).
  intros ->. destruct (claim_main _ _ _ _ _ _ _ R2 Hn Hd Hm' E2) as ([[Z0 _]|[_ [[_ Q] _]]] & _); [contradiction|congruence].
Qed.

(** A pending interrupt stays pending until it is claimed. *)
Lemma pending_kept k o k' v s : good k o -> cinv k -> minv k -> step k o = Some (k', v) -> is_pending k s = true ->
  is_pending k' s = true \/ exists c, p_cc k' c = s.
Proof.
  intros G I M E P. destruct o as [ss cs|d|t x l|a n|a n x]; cbn [step] in E.
  - left. destruct (configure_effect k ss cs) as ((_ & _ & _ & _ & Q & _) & _). destruct (configure k ss cs) as [k1 ok]. cbn [fst] in *. assert (k1 = k') as <- by congruence. rewrite (same_pend _ _ Q). exact P.
  - left. destruct (_ || _); [discriminate|]. apply some_eq in E. injection E as -> _. exact P.
  - left. apply some_eq in E. injection E as -> _. unfold set_interrupt. destruct (_ || _); [exact P|]. destruct (_ && _); [exact P|].
    destruct (_ || _); [destruct l; exact P|]. destruct (_ =? 0); [destruct l; exact P|].
    match goal with |- context [set_plic_pending ?k0 t] => destruct (spp_effect k0 t) as [_ ->]; assert (is_pending k0 s = is_pending k s) as -> by (destruct l; reflexivity) end. rewrite P. reflexivity.
  - destruct (load_one _ _ _ _ _ E) as [->|(d & id & Hd & C)]; [left; exact P|]. destruct (claim_spec _ _ _ _ I C) as [(-> & _)|H]; [left; exact P|].
    destruct H as (_ & Q & _ & _ & _ & _ & _ & _ & _ & _ & _ & Cc & _). rewrite Q, P. destruct (Z.eqb_spec s id) as [->|]; [|left; reflexivity].
    destruct (Z.eqb_spec id 0); [left; reflexivity|]. right. exists d. rewrite Cc. apply upd_same.
  - left. destruct (store k a n x) as [k1|] eqn:S; [|discriminate]. assert (k1 = k') as -> by congruence. clear E.
    destruct (store_wrote _ _ _ _ _ S) as (y & Hy & W). destruct G as [G1 G2]. destruct W as [|t Es Ht Ho|k' H|k' H W|d k' Hc Ha W|d Hc Ha].
    + exact P.
    + rewrite write_priority_eq; [exact P|assumption|rewrite <- Es; lia|intros; eapply G2; eassumption].
    + lia.
    + destruct (minv_enable k _ y k' M Hy W) as ((_ & _ & _ & _ & _ & Q & _) & _). rewrite (same_pend _ _ Q). exact P.
    + destruct (threshold_effect k d y k' W) as ((_ & _ & _ & _ & _ & Q & _) & _). rewrite (same_pend _ _ Q). exact P.
    + unfold complete. destruct (_ || _); [exact P|]. destruct (negb _); [exact P|]. destruct (_ && _); [|exact P].
      match goal with |- context [set_plic_pending ?k0 ?t] => destruct (spp_effect k0 t) as [_ ->]; change (is_pending k0 s) with (is_pending k s) end. rewrite P. reflexivity.
Qed.
Lemma kept_main ns nc l k o k' v s : reach ns nc l k -> good k o -> step k o = Some (k', v) -> is_pending k s = true ->
  is_pending k' s = true \/ exists c, p_cc k' c = s.
Proof. intros R G E P. destruct (reach_inv _ _ _ _ R). eapply pending_kept; eassumption. Qed.

(** Acceptance. *)
Lemma accept_main ns nc l k s lvl : reach ns nc l k -> 0 < s < ns -> p_ready k s = true -> 0 < p_prio k s ->
  let k' := set_interrupt k s true lvl in
  is_pending k' s = true /\ (forall t, t <> s -> is_pending k' t = is_pending k t) /\
  (forall c, enabled k c s -> p_if k c = true -> p_thr k c < p_prio k s -> p_line k' c = true).
Proof.
  intros R Hs Rd Pr. destruct (reach_inv _ _ _ _ R) as [I M]. destruct (reach_const _ _ _ _ R) as [En _]. unfold set_interrupt.
  destruct (Z.ltb_spec s 0); [lia|]. destruct (Z.leb_spec (p_ns k) s); [lia|]. cbn [orb negb andb]. rewrite Rd. cbn [negb orb].
  set (k1 := if lvl then _ else k). assert (p_prio k1 = p_prio k /\ p_ns k1 = p_ns k /\ p_map k1 = p_map k /\ p_thr k1 = p_thr k /\ p_if k1 = p_if k /\ p_pend k1 = p_pend k) as (E1 & E2 & E3 & E4 & E5 & E6) by (destruct lvl; repeat split).
  rewrite E1. destruct (Z.eqb_spec (p_prio k s) 0); [lia|]. set (k2 := set_gw k1 _ _).
  destruct (spp_effect k2 s) as [_ P]. assert (acceptable k2 s = true) as A.
  { unfold acceptable. change (p_ns k2) with (p_ns k1). change (p_prio k2 s) with (p_prio k1 s). rewrite E1, E2. destruct (Z.ltb_spec 0 s); [|lia]. destruct (Z.ltb_spec s (p_ns k)); [|lia]. destruct (Z.eqb_spec (p_prio k s) 0); [lia|reflexivity]. }
  assert (forall t, is_pending k2 t = is_pending k t) as P2 by (intros t; unfold is_pending; change (p_pend k2) with (p_pend k1); rewrite E6; reflexivity).
  split; [|split].
  - rewrite P, A, Z.eqb_refl. apply orb_true_r.
  - intros t Ht. rewrite P, P2. destruct (Z.eqb_spec t s); [contradiction|]. apply orb_false_r.
  - intros c Ec Ic Tc. apply spp_line; [exact A| | | |].
    + rewrite P2. apply (i_ready k I s ltac:(lia) Rd).
    + apply contexts_in. change (p_map k2) with (p_map k1). rewrite E3. apply (m_en k M), Ec.
    + change (p_thr k2 c) with (p_thr k1 c). change (p_prio k2 s) with (p_prio k1 s). rewrite E1, E4. exact Tc.
    + change (p_if k2 c) with (p_if k1 c). rewrite E5. exact Ic.
Qed.
(** The gateway remembers the level input. *)
Lemma level_step k o k' v s : good k o -> cinv k -> minv k -> step k o = Some (k', v) ->
  p_gpend k' s = match o with SetInterrupt s' x true => if (s' =? s) && (0 <=? s') && (s' <? p_ns k) then x else p_gpend k s | _ => p_gpend k s end.
Proof.
  intros G I M E. destruct o as [ss cs|d|t x l|a n|a n x]; cbn [step] in E.
  - destruct (configure_effect k ss cs) as ((_ & _ & _ & Q & _) & _). destruct (configure k ss cs) as [k1 ok]. cbn [fst] in *. assert (k1 = k') as <- by congruence. rewrite Q. reflexivity.
  - destruct (_ || _); [discriminate|]. apply some_eq in E. injection E as -> _. reflexivity.
  - apply some_eq in E. injection E as -> _. destruct (set_interrupt_frame k t x l) as (_ & _ & _ & _ & _ & _ & _ & _ & ->).
    destruct l; cbn [andb]; [|reflexivity]. destruct (0 <=? t), (t <? p_ns k); cbn [andb]; rewrite ?andb_true_r, ?andb_false_r; try reflexivity. unfold upd. rewrite (Z.eqb_sym t s). reflexivity.
  - destruct (load_one _ _ _ _ _ E) as [->|(d & id & Hd & C)]; [reflexivity|]. destruct (claim_spec _ _ _ _ I C) as [(-> & _)|H]; [reflexivity|].
    destruct H as (_ & _ & _ & _ & _ & -> & _). reflexivity.
  - destruct (store k a n x) as [k1|] eqn:S; [|discriminate]. assert (k1 = k') as -> by congruence. clear E.
    destruct (store_wrote _ _ _ _ _ S) as (y & Hy & W). destruct G as [G1 G2]. destruct W as [|t Es Ht Ho|k' H|k' H W|d k' Hc Ha W|d Hc Ha].
    + reflexivity.
    + rewrite write_priority_eq; [reflexivity|assumption|rewrite <- Es; lia|intros; eapply G2; eassumption].
    + lia.
    + destruct (minv_enable k _ y k' M Hy W) as ((_ & _ & _ & -> & _) & _). reflexivity.
    + destruct (threshold_effect k d y k' W) as ((_ & _ & _ & -> & _) & _). reflexivity.
    + destruct (complete_frame k d y) as (_ & _ & _ & -> & _). reflexivity.
Qed.
Lemma level_gen s ns l : forall k0 k vs, p_ns k0 = ns -> all_good k0 l -> run k0 l = Some (k, vs) -> cinv k0 -> minv k0 ->
  p_gpend k s = fold_left (fun b o => match o with
                        | SetInterrupt s' v true => if (s' =? s) && (0 <=? s') && (s' <? ns) then v else b
                        | _ => b end) l (p_gpend k0 s).
Proof.
  induction l as [|o l IH]; intros k0 k vs En G E I M; cbn [run all_good fold_left] in *.
  - assert (k0 = k) as <- by congruence. reflexivity.
  - destruct G as [G1 G2]. destruct (step k0 o) as [[k1 v]|] eqn:S; [|discriminate]. destruct (run k1 l) as [[k2 v2]|] eqn:R; [|discriminate]. assert (k2 = k) as -> by congruence.
    destruct (step_inv _ _ _ _ G1 S I M) as [I1 M1]. destruct (step_const _ _ _ _ G1 M I S) as [C1 _]. rewrite (IH k1 k v2 ltac:(congruence) G2 R I1 M1), (level_step _ _ _ _ s G1 I M S), En. destruct o as [| |? ? []| |]; reflexivity.
Qed.
Lemma level_main ns nc l k s : reach ns nc l k -> p_gpend k s = level_after ns s l.
Proof. intros (G & vs & E). destruct (init_cinv ns nc) as [I M]. apply (level_gen s ns l (init ns nc) k vs); auto. Qed.
(** Completion. *)
Lemma complete_main ns nc l k c s id : reach ns nc l k -> ns < 2 ^ 31 -> 0 <= c < nc -> c < 0xe00 -> p_cc k c = s -> 0 < s -> s < ns -> enabled k c id -> 0 <= id < 2 ^ 32 ->
  exists k', store k (a_claim c) 4 id = Some k' /\ p_cc k' c = 0 /\
  (if level_after ns s l && (0 <? p_prio k s) then is_pending k' s = true
   else p_ready k' s = true /\ is_pending k' s = false).
Proof.
  intros R Hn Hc Hm Es Hs Hs' En Hid. destruct (reach_inv _ _ _ _ R) as [I M]. destruct (reach_const _ _ _ _ R) as [Ens Enc].
  rewrite <- (level_main ns nc l k s R).
  exists (complete k c id). split.
  { unfold store. rewrite off_mod. unfold a_claim. rewrite Z.mod_small by lia. cbn [Z.eqb Pos.eqb orb]. change (8 * 4) with 32. rewrite wrap_id by exact Hid. unfold write.
    set (off := 2097152 + 4096 * c + 4). destruct (Z.ltb_spec off 0x1000); [lia|]. destruct (Z.ltb_spec off 0x2000); [lia|]. destruct (Z.ltb_spec off 0x200000); [lia|].
    assert (Z.shiftr (off - 0x200000) 12 = c) as ->.
    { rewrite Z.shiftr_div_pow2 by lia. change (2 ^ 12) with 4096. replace (off - 0x200000) with (c * 4096 + 4) by lia. rewrite Z.div_add_l, Z.div_small by lia. lia. }
    assert (Z.land (off - 0x200000) 0xfff = 4) as ->.
    { change 0xfff with (Z.ones 12). rewrite Z.land_ones by lia. change (2 ^ 12) with 4096. replace (off - 0x200000) with (4 + c * 4096) by lia. rewrite Z.mod_add, Z.mod_small by lia. reflexivity. }
    destruct (Z.leb_spec (p_nc k) c); [lia|]. reflexivity. }
  unfold complete. destruct (Z.ltb_spec c 0); [lia|]. destruct (Z.leb_spec (p_nc k) c); [lia|]. cbn [orb].
  assert (existsb (fun t => t =? id) (sources_of k c) = true) as ->.
  { apply existsb_exists. exists id. split; [apply sources_in, (m_en k M), En|apply Z.eqb_refl]. }
  cbn [negb]. rewrite Es. set (k1 := set_cc k _). change (p_gpend k1 s) with (p_gpend k s). change (p_prio k1 s) with (p_prio k s).
  assert (is_pending k s = false) as Np by (destruct (is_pending k s) eqn:Q; [exfalso; exact (i_pend k I s Q c Es)|reflexivity]).
  destruct (p_gpend k s && (0 <? p_prio k s)) eqn:Q.
  - apply andb_prop in Q as [_ Q]. apply Z.ltb_lt in Q. destruct (spp_effect k1 s) as [(_ & _ & _ & _ & _ & _ & _ & Cc & _) P]. split.
    + rewrite Cc. cbn [k1 p_cc set_cc]. apply upd_same.
    + rewrite P, Z.eqb_refl. unfold acceptable. change (p_prio k1 s) with (p_prio k s). change (p_ns k1) with (p_ns k). destruct (Z.ltb_spec 0 s); [|lia]. destruct (Z.ltb_spec s (p_ns k)); [|lia].
      destruct (Z.eqb_spec (p_prio k s) 0); [lia|]. apply orb_true_r.
  - split; [cbn [k1 p_cc set_gw set_cc]; apply upd_same|]. split; [cbn [p_ready set_gw]; apply upd_same|]. exact Np.
Qed.
(** The line goes down with the last eligible interrupt. *)
Lemma lowered_main ns nc l k c k' id : reach ns nc l k -> ns < 2 ^ 31 -> 0 <= c < nc -> c < 0xe00 -> load k (a_claim c) 4 = Some (k', id) ->
  none_eligible (eligible k' c) (p_prio k') -> p_line k' c = false.
Proof.
  intros R Hn Hc Hm E N. destruct (reach_inv _ _ _ _ R) as [I M]. destruct (reach_const _ _ _ _ R) as [Ens Enc].
  destruct (claim_main _ _ _ _ _ _ _ R Hn Hc Hm E) as (B & P & Pr & _ & En).
  rewrite claim_load in E by lia. destruct (claim k c) as [[k1 i]|] eqn:C; [|discriminate]. assert (k1 = k' /\ wrap 32 i = id) as [-> W] by (split; congruence).
  assert (i = id) as ->.
  { rewrite <- W. symmetry. apply wrap_id. destruct (claim_spec _ _ _ _ I C) as [(_ & -> & _)|H]; [unfold inw; lia|].
    destruct H as (_ & _ & _ & _ & _ & _ & _ & _ & _ & _ & _ & _ & [[-> _]|[_ [[_ Q] _]]]); [unfold inw; lia|]. pose proof (i_pos k I i Q). unfold inw. lia. }
  clear E W. unfold claim in C. destruct (_ || _) eqn:Rg. { apply orb_prop in Rg as [X|X]; [apply Z.ltb_lt in X|apply Z.leb_le in X]; lia. }
  destruct (existsb _ _); [discriminate|].
  pose proof (scan_count k (sources_of k c)) as Cn. destruct (claim_scan k (sources_of k c)) as [[i pr] n] eqn:Sc.
  assert (i = id) as ->.
  { destruct (negb (i =? 0)); [destruct (n - 1 =? 0)|destruct (n =? 0)]; try (destruct (p_if _ c); [|discriminate]); congruence. }
  rewrite Cn in C.
  - destruct (Z.eqb_spec id 0); cbn [negb] in C; cbn [Z.eqb Z.sub Z.add Z.opp Z.pos_sub] in C; (destruct (p_if _ c) in C; [|discriminate]);
      (apply some_eq in C; apply (f_equal fst) in C; cbn [fst] in C; rewrite C; cbn [p_line set_irq]; apply upd_same).
  - unfold sources_of. pose proof (m_nodup k M) as Nd. clear -Nd. revert Nd. generalize (p_map k). intros m0 Nd. induction Nd as [|p0 m NI Nd IH]; [constructor|]. destruct p0 as [a b]. cbn [filter snd]. destruct (Z.eqb_spec b c); [|exact IH].
    cbn [map fst]. constructor; [|exact IH]. intros H. apply NI. apply in_map_iff in H as ([x y] & Ex & H). apply filter_In in H as [H1 H2]. cbn [fst snd] in *. apply Z.eqb_eq in H2. subst. exact H1.
  - apply I.
  - intros s _ Q. apply (i_pos k I s Q).
  - intros s t Hs Ht Qs Qt Ps Pt. assert (forall x, In x (sources_of k c) -> is_pending k x = true -> 0 < p_prio k x -> x = id) as U.
    { intros x Hx Qx Px. destruct (Z.eq_dec x id); [assumption|]. exfalso. assert (p_prio k' x = 0) as Z0.
      { apply N. split; [unfold enabled; rewrite En; apply (m_en k M), sources_in, Hx|]. rewrite P, Qx. destruct (Z.eqb_spec x id); [contradiction|reflexivity]. }
      rewrite Pr in Z0. lia. }
    rewrite (U s), (U t); auto.
Qed.

(** C48. *)
Lemma a_threshold_read k c : 0 <= c < p_nc k -> c < 0xe00 -> (forall d, inw 32 (p_thr k d)) -> load k (a_threshold c) 4 = Some (k, p_thr k c).
Proof.
  intros Hc Hm R. unfold load. rewrite off_mod. unfold a_threshold. rewrite Z.mod_small by lia. cbn [Z.eqb Pos.eqb orb]. change (8 * 4) with 32. unfold read.
  set (off := 2097152 + 4096 * c). destruct (Z.ltb_spec off 0x1000); [lia|]. destruct (Z.ltb_spec off 0x2000); [lia|]. destruct (Z.ltb_spec off 0x200000); [lia|].
  assert (Z.shiftr (off - 0x200000) 12 = c) as ->.
  { rewrite Z.shiftr_div_pow2 by lia. change (2 ^ 12) with 4096. replace (off - 0x200000) with (c * 4096) by lia. apply Z.div_mul. lia. }
  assert (Z.land (off - 0x200000) 0xfff = 0) as ->.
  { change 0xfff with (Z.ones 12). rewrite Z.land_ones by lia. change (2 ^ 12) with 4096. replace (off - 0x200000) with (c * 4096) by lia. apply Z.mod_mul. lia. }
  destruct (Z.leb_spec (p_nc k) c); [lia|]. cbn [Z.eqb]. rewrite wrap_id by apply R. reflexivity.
Qed.
Lemma threshold_main k c v k' : 0 <= c < p_nc k -> c < 0xe00 -> 0 <= v < 2 ^ 32 -> store k (a_threshold c) 4 v = Some k' ->
  load k' (a_threshold c) 4 = Some (k', v) /\ (forall d, d <> c -> p_thr k' d = p_thr k d) /\
  p_prio k' = p_prio k /\ p_pend k' = p_pend k /\ p_en k' = p_en k /\ p_cc k' = p_cc k.
Proof.
  intros Hc Hm Hv. unfold store. rewrite off_mod. unfold a_threshold at 1. rewrite Z.mod_small by lia. cbn [Z.eqb Pos.eqb orb]. change (8 * 4) with 32. rewrite wrap_id by exact Hv. unfold write.
  set (off := 2097152 + 4096 * c). destruct (Z.ltb_spec off 0x1000); [lia|]. destruct (Z.ltb_spec off 0x2000); [lia|]. destruct (Z.ltb_spec off 0x200000); [lia|].
  assert (Z.shiftr (off - 0x200000) 12 = c) as ->.
  { rewrite Z.shiftr_div_pow2 by lia. change (2 ^ 12) with 4096. replace (off - 0x200000) with (c * 4096) by lia. apply Z.div_mul. lia. }
  assert (Z.land (off - 0x200000) 0xfff = 0) as ->.
  { change 0xfff with (Z.ones 12). rewrite Z.land_ones by lia. change (2 ^ 12) with 4096. replace (off - 0x200000) with (c * 4096) by lia. apply Z.mod_mul. lia. }
  destruct (Z.leb_spec (p_nc k) c); [lia|]. cbn [Z.eqb]. intros W. destruct (threshold_effect _ _ _ _ W) as ((_ & Nc & _ & _ & Pr & Pe & Cc & _) & En & _ & Th).
  split; [|split; [|auto]].
  - unfold load. rewrite off_mod. unfold a_threshold. rewrite Z.mod_small by lia. cbn [Z.eqb Pos.eqb orb]. change (8 * 4) with 32. unfold read. fold off.
    destruct (Z.ltb_spec off 0x1000); [lia|]. destruct (Z.ltb_spec off 0x2000); [lia|]. destruct (Z.ltb_spec off 0x200000); [lia|].
    assert (Z.shiftr (off - 0x200000) 12 = c) as ->.
    { rewrite Z.shiftr_div_pow2 by lia. change (2 ^ 12) with 4096. replace (off - 0x200000) with (c * 4096) by lia. apply Z.div_mul. lia. }
    assert (Z.land (off - 0x200000) 0xfff = 0) as ->.
    { change 0xfff with (Z.ones 12). rewrite Z.land_ones by lia. change (2 ^ 12) with 4096. replace (off - 0x200000) with (c * 4096) by lia. apply Z.mod_mul. lia. }
    destruct (Z.leb_spec (p_nc k') c); [lia|]. cbn [Z.eqb]. rewrite Th, upd_same, wrap_id by exact Hv. reflexivity.
  - intros d Hd. rewrite Th. apply upd_other, Hd.
Qed.
Lemma priority_main k s v : 0 <= s < p_ns k -> 8 * s < 0x1000 -> 0 <= v < 2 ^ 32 -> exists k', store k (8 * s) 4 v = Some k' /\
  load k' (a_priority s) 4 = Some (k', v) /\ (forall t, t <> s -> p_prio k' t = p_prio k t) /\
  p_thr k' = p_thr k /\ p_en k' = p_en k /\ p_cc k' = p_cc k.
Proof.
  intros Hs Hm Hv. exists (write_priority k (8 * s) v). split.
  { unfold store. rewrite off_mod, Z.mod_small by lia. cbn [Z.eqb Pos.eqb orb]. change (8 * 4) with 32. rewrite wrap_id by exact Hv. unfold write. destruct (Z.ltb_spec (8 * s) 0x1000); [reflexivity|lia]. }
  assert (let k' := write_priority k (8 * s) v in p_prio k' = upd (p_prio k) s v /\ p_ns k' = p_ns k /\ p_thr k' = p_thr k /\ p_en k' = p_en k /\ p_cc k' = p_cc k) as (Pr & Ns & Th & En & Cc).
  { unfold write_priority. assert (Z.shiftr (8 * s) 3 = s) as -> by (rewrite Z.shiftr_div_pow2 by lia; change (2 ^ 3) with 8; rewrite Z.mul_comm; apply Z.div_mul; lia).
    destruct (Z.leb_spec (p_ns k) s); [lia|]. destruct (_ && _ && _ && _); [|repeat split].
    match goal with |- context [set_plic_pending ?k0 s] => destruct (spp_effect k0 s) as [(A & _ & _ & _ & B & C & D & E & _) _] end. repeat split; assumption. }
  set (k' := write_priority k (8 * s) v) in *. split.
  - unfold load, a_priority. rewrite off_mod, Z.mod_small by lia. cbn [Z.eqb Pos.eqb orb]. change (8 * 4) with 32. unfold read. destruct (Z.ltb_spec (4 * s) 0x1000); [|lia].
    assert (Z.shiftr (4 * s) 2 = s) as -> by (rewrite Z.shiftr_div_pow2 by lia; change (2 ^ 2) with 4; rewrite Z.mul_comm; apply Z.div_mul; lia).
    destruct (Z.ltb_spec s (p_ns k')); [|lia]. rewrite Pr, upd_same, wrap_id by exact Hv. reflexivity.
  - split; [intros t Ht; rewrite Pr; apply upd_other, Ht|auto].
Qed.
Lemma enable_main ns nc l k c w v k' : reach ns nc l k -> 0 <= c < nc -> 0 <= w < 32 -> 32 * w < ns + 32 -> 0x200 * c + 0x2200 <= 0x200000 -> 0 <= v < 2 ^ 32 ->
  store k (0x2000 + 0x200 * c + 0x10 * w) 4 v = Some k' ->
  load k' (0x2000 + 0x80 * c + w) 4 = Some (k', v) /\ (forall d x, (d, x) <> (c, w) -> p_en k' d x = p_en k d x) /\
  p_prio k' = p_prio k /\ p_pend k' = p_pend k /\ p_thr k' = p_thr k /\ p_cc k' = p_cc k.
Proof.
  intros R Hc Hw Hws Hm Hv. destruct (reach_inv _ _ _ _ R) as [I M]. destruct (reach_const _ _ _ _ R) as [Ens Enc].
  unfold store. rewrite off_mod, Z.mod_small by lia. cbn [Z.eqb Pos.eqb orb]. change (8 * 4) with 32. rewrite wrap_id by exact Hv. unfold write.
  set (off := 8192 + 512 * c + 16 * w). destruct (Z.ltb_spec off 0x1000); [lia|]. destruct (Z.ltb_spec off 0x2000); [lia|]. destruct (Z.ltb_spec off 0x200000); [|lia]. intros W.
  assert (w <= p_ns k / 32) as Hwn.
  { unfold write_enable in W. destruct (_ || _) eqn:B; [discriminate|]. apply orb_false_iff in B as [_ B]. apply Z.ltb_ge in B.
    assert (Z.land (Z.shiftr (Z.shiftr (off - 8192) 2) 2) 31 = w) as Ew; [|rewrite Ew in B; exact B].
    rewrite Z.shiftr_shiftr by lia. change (2 + 2) with 4. rewrite Z.shiftr_div_pow2 by lia. change 31 with (Z.ones 5). rewrite Z.land_ones by lia. change (2 ^ 4) with 16. change (2 ^ 5) with 32.
    replace (off - 8192) with ((w + c * 32) * 16) by lia. rewrite Z.div_mul by lia. rewrite Z.mod_add, Z.mod_small by lia. reflexivity. }
  destruct (minv_enable k off v k' M Hv W) as ((Ns & Nc & _ & _ & Pr & Pe & Cc & _) & Th & _ & EN). cbv zeta in EN.
  assert ((off - 0x2000) / 4 = 128 * c + 4 * w) as Eo by (replace (off - 0x2000) with ((128 * c + 4 * w) * 4) by lia; apply Z.div_mul; lia). rewrite Eo in EN.
  assert ((128 * c + 4 * w) / 128 = c) as E1 by (rewrite Z.mul_comm, Z.div_add_l, Z.div_small by lia; lia). rewrite E1 in EN.
  assert (((128 * c + 4 * w) / 4) mod 32 = w) as E2.
  { replace (128 * c + 4 * w) with ((w + c * 32) * 4) by lia. rewrite Z.div_mul, Z.mod_add, Z.mod_small by lia. reflexivity. } rewrite E2 in EN.
  split; [|split; [|auto]].
  - unfold load. rewrite off_mod, Z.mod_small by lia. cbn [Z.eqb Pos.eqb orb]. change (8 * 4) with 32. unfold read.
    set (off2 := 8192 + 128 * c + w). destruct (Z.ltb_spec off2 0x1000); [lia|]. destruct (Z.ltb_spec off2 0x2000); [lia|]. destruct (Z.ltb_spec off2 0x200000); [|lia].
    assert (Z.shiftr (off2 - 0x2000) 7 = c) as ->.
    { rewrite Z.shiftr_div_pow2 by lia. change (2 ^ 7) with 128. replace (off2 - 0x2000) with (c * 128 + w) by lia. rewrite Z.div_add_l, Z.div_small by lia. lia. }
    assert (Z.land (off2 - 0x2000) 0x7f = w) as ->.
    { change 0x7f with (Z.ones 7). rewrite Z.land_ones by lia. change (2 ^ 7) with 128. replace (off2 - 0x2000) with (w + c * 128) by lia. rewrite Z.mod_add, Z.mod_small by lia. reflexivity. }
    destruct (Z.leb_spec (p_nc k') c); [lia|]. destruct (Z.leb_spec (p_ns k' + 32) (w * 32)); [lia|]. rewrite Ns. destruct (Z.leb_spec w (p_ns k / 32)); [|lia].
    rewrite EN, !Z.eqb_refl. cbn [andb]. rewrite wrap_id by exact Hv. reflexivity.
  - intros d x D. rewrite EN. destruct (Z.eqb_spec d c) as [->|]; [|reflexivity]. destruct (Z.eqb_spec x w) as [->|]; [contradiction|reflexivity].
Qed.
