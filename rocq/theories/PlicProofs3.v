(** Histories of the PLIC (C47) and its register map (C48). *)
From Coq Require Import ZArith Bool List Lia.
From Verif Require Import Bits PlicSpec PlicModel PlicHist PlicProofs PlicProofs2.
Import ListNotations.
Local Open Scope Z_scope.

(** Configure. *)
Definition cfg_same (k k' : plic) : Prop :=
  p_ns k' = p_ns k /\ p_nc k' = p_nc k /\ p_ready k' = p_ready k /\ p_gpend k' = p_gpend k /\ p_pend k' = p_pend k /\
  p_cc k' = p_cc k /\ p_if k' = p_if k /\ p_irq k' = p_irq k /\ p_line k' = p_line k.
Lemma cfg_refl k : cfg_same k k.
Proof. repeat split. Qed.
Lemma cfg_trans a b c : cfg_same a b -> cfg_same b c -> cfg_same a c.
Proof. unfold cfg_same. intuition congruence. Qed.
Lemma cfg_sources_effect l : forall k, let k' := fst (configure_sources k l) in
  cfg_same k k' /\ p_en k' = p_en k /\ p_map k' = p_map k /\ p_thr k' = p_thr k /\ ((forall s, 0 <= p_prio k s) -> forall s, 0 <= p_prio k' s).
Proof.
  induction l as [|[s p] l IH]; intros k; cbn [configure_sources].
  - cbn [fst]. split; [apply cfg_refl|]. repeat split; auto.
  - destruct (_ <=? _); [cbn [fst]; split; [apply cfg_refl|]; repeat split; auto|].
    destruct (IH (set_prio k (upd (p_prio k) s (wrap 32 p)))) as (A & B & C & D & E). split; [exact A|]. split; [exact B|]. split; [exact C|]. split; [exact D|].
    intros P. apply E. intros t. cbn [p_prio set_prio]. unfold upd. destruct (t =? s); [apply wrap_range; lia|apply P].
Qed.
Lemma minv_item k c s : minv k -> 0 <= s -> ~ enabled k c s -> minv (configure_item k c (s, 1)).
Proof.
  intros [N M] Hs NE. unfold configure_item. destruct (idx s) as [_ ->]. pose proof (Z.mod_pos_bound s 32 ltac:(lia)) as Bs. constructor.
  - cbn [p_map set_en set_map]. rewrite <- (rev_involutive (p_map k ++ _)). apply NoDup_rev. rewrite rev_app_distr. cbn [rev app]. constructor; [|apply NoDup_rev, N].
    rewrite <- in_rev, M. exact NE.
  - intros t d. cbn [p_map set_en set_map]. rewrite in_app_iff, M. unfold enabled. cbn [p_en set_en set_map]. cbn [In].
    unfold upd. destruct (Z.eqb_spec d c) as [->|Dc].
    + destruct (Z.eqb_spec (t / 32) (s / 32)) as [Ew|Ew].
      * rewrite Z.lor_spec, Z.land_spec, wnot_testbit, <- Ew by lia. pose proof (Z.mod_pos_bound t 32 ltac:(lia)) as Bt.
        rewrite wrap_testbit, Z.shiftl_1_l by lia. destruct (Z.ltb_spec (t mod 32) 32); [|lia]. cbn [andb].
        rewrite Z.pow2_bits_eqb by lia.
        pose proof (Z.div_mod s 32 ltac:(lia)). pose proof (Z.div_mod t 32 ltac:(lia)).
        destruct (Z.eqb_spec (s mod 32) (t mod 32)) as [E|E]; cbn [negb].
        -- rewrite orb_true_r. split; [reflexivity|]. intros _. right. left. f_equal. lia.
        -- rewrite andb_true_r, orb_false_r. split; [intros [X|[X|[]]]; [exact X|]|left; assumption].
           exfalso. apply E. injection X as ->. reflexivity.
      * split; [intros [H|[H|[]]]; [exact H|]|left; assumption]. exfalso. apply Ew. injection H as ->. reflexivity.
    + split; [intros [H|[H|[]]]; [exact H|]|left; assumption]. exfalso. apply Dc. injection H as _ ->. reflexivity.
Qed.
Lemma item_frame k c it : let k' := configure_item k c it in cfg_same k k' /\ p_prio k' = p_prio k /\ p_thr k' = p_thr k /\
  p_map k' = p_map k ++ [(fst it, c)].
Proof. destruct it as [s e]. repeat split. Qed.
Lemma items_effect c l : forall k, let k' := fst (configure_items k c l) in cfg_same k k' /\ p_prio k' = p_prio k /\
  (forall p, In p (p_map k') -> In p (p_map k) \/ In p (map (fun it => (fst it, c)) l)) /\
  (minv k -> NoDup (map (fun it => (fst it, c)) l) -> (forall s, In s (map fst l) -> 0 <= s /\ ~ enabled k c s) -> Forall (fun e => e = 1) (map snd l) -> minv k').
Proof.
  induction l as [|it l IH]; intros k; cbn [configure_items].
  - cbn [fst]. split; [apply cfg_refl|]. split; [reflexivity|]. split; [auto|]. auto.
  - destruct (_ <=? _); [cbn [fst]; split; [apply cfg_refl|]; split; [reflexivity|]; split; [auto|]; auto|].
    destruct (IH (configure_item k c it)) as (A & B & C & D). destruct (item_frame k c it) as (A1 & B1 & _ & C1).
    split; [eapply cfg_trans; eassumption|]. split; [congruence|]. split.
    + intros p H. destruct (C p H) as [H1|H1]; [|right; right; exact H1]. rewrite C1, in_app_iff in H1. destruct H1 as [H1|[H1|[]]]; [left; exact H1|right; left; exact H1].
    + intros MI N F O. inversion N as [|? ? NI N']; subst. inversion O as [|? ? O1 O2]; subst. destruct it as [s e]. cbn [snd fst map] in *. subst e.
      destruct (F s (or_introl eq_refl)) as [F1 F2]. pose proof (minv_item k c s MI F1 F2) as MI'. apply D; try assumption.
      intros t Ht. destruct (F t (or_intror Ht)) as [G1 G2]. split; [exact G1|]. intros En. apply (m_en _ MI') in En. rewrite C1, in_app_iff in En. cbn [In fst] in En.
      destruct En as [En|[En|[]]]; [apply G2, (m_en k MI), En|]. apply NI. rewrite En. clear -Ht. apply in_map_iff in Ht as (x & <- & Hx). apply in_map_iff. exists x. split; [reflexivity|exact Hx].
Qed.
Lemma contexts_effect l : forall k, let k' := fst (configure_contexts k l) in cfg_same k k' /\ p_prio k' = p_prio k /\
  (minv k -> NoDup (cfg_pairs l) -> (forall s c, In (s, c) (cfg_pairs l) -> 0 <= s /\ ~ enabled k c s) -> Forall (fun e => e = 1) (cfg_enables l) -> minv k').
Proof.
  induction l as [|[[c th] items] l IH]; intros k; cbn [configure_contexts].
  - cbn [fst]. split; [apply cfg_refl|]. split; [reflexivity|]. auto.
  - destruct (_ <=? _); [cbn [fst]; split; [apply cfg_refl|]; split; [reflexivity|]; auto|].
    set (k0 := set_thr k _). destruct (items_effect c items k0) as (A & B & C & D). destruct (configure_items k0 c items) as [k1 ok]. cbn [fst] in A, B, C, D.
    assert (cfg_same k k0) as S0 by (repeat split).
    assert (minv k -> NoDup (cfg_pairs ((c, th, items) :: l)) -> (forall s d, In (s, d) (cfg_pairs ((c, th, items) :: l)) -> 0 <= s /\ ~ enabled k d s) ->
      Forall (fun e => e = 1) (cfg_enables ((c, th, items) :: l)) -> minv k1) as D1.
    { intros MI N F O. apply D.
      - destruct MI as [M1 M2]. constructor; [exact M1|exact M2].
      - cbn [cfg_pairs flat_map fst snd] in N. clear -N. induction (map (fun it : Z * Z => (fst it, c)) items) as [|x m IHm]; [constructor|]. cbn [app] in N. inversion N as [|? ? H1 H2]; subst. constructor; [|apply IHm, H2]. intros H. apply H1, in_or_app. left. exact H.
      - intros s Hs. apply (F s c). cbn [cfg_pairs flat_map fst snd]. apply in_or_app. left. apply in_map_iff in Hs as (x & <- & Hx). apply in_map_iff. exists x. split; [reflexivity|exact Hx].
      - cbn [cfg_enables flat_map fst snd] in O. apply Forall_app in O. apply O. }
    destruct ok; cbn [fst].
    + destruct (IH k1) as (A1 & B1 & C1). split; [exact (cfg_trans _ _ _ S0 (cfg_trans _ _ _ A A1))|]. split; [rewrite B1, B; reflexivity|].
      intros MI N F O. apply C1.
      * apply D1; assumption.
      * cbn [cfg_pairs flat_map fst snd] in N. clear -N. induction (map (fun it : Z * Z => (fst it, c)) items) as [|x m IHm]; [exact N|]. cbn [app] in N. inversion N; subst. apply IHm. assumption.
      * intros s d Hsd. assert (In (s, d) (cfg_pairs ((c, th, items) :: l))) as Hin by (cbn [cfg_pairs flat_map fst snd]; apply in_or_app; right; exact Hsd).
        destruct (F s d Hin) as [G1 G2]. split; [exact G1|]. intros En. apply (m_en _ (D1 MI N F O)) in En. apply C in En as [En|En]; [apply G2, (m_en k MI), En|].
        clear -N En Hsd. cbn [cfg_pairs flat_map fst snd] in N. unfold cfg_pairs in Hsd. induction (map (fun it : Z * Z => (fst it, c)) items) as [|x m IHm]; [contradiction|]. cbn [app] in N. inversion N as [|? ? H1 H2]; subst.
        destruct En as [->|En]; [apply H1, in_or_app; right; exact Hsd|apply IHm; assumption].
      * cbn [cfg_enables flat_map fst snd] in O. apply Forall_app in O. apply O.
    + split; [exact (cfg_trans _ _ _ S0 A)|]. split; [rewrite B; reflexivity|]. exact D1.
Qed.
Lemma configure_effect k ss cs : let k' := fst (configure k ss cs) in cfg_same k k' /\ ((forall s, 0 <= p_prio k s) -> forall s, 0 <= p_prio k' s) /\
  (minv k -> good k (Configure ss cs) -> minv k').
Proof.
  unfold configure. destruct (cfg_sources_effect ss k) as (A & B & C & D & E). destruct (configure_sources k ss) as [k1 ok]. cbn [fst] in *.
  assert (minv k -> minv k1) as MI by (intros [M1 M2]; constructor; [rewrite C; exact M1|intros s c; unfold enabled; rewrite B, C; apply M2]).
  destruct ok; [|cbn [fst]; split; [exact A|]; split; [exact E|]; auto].
  destruct (contexts_effect cs k1) as (A1 & B1 & C1). split; [eapply cfg_trans; eassumption|]. split; [intros P s; rewrite B1; apply E, P|].
  intros M (N & F & O). apply C1; try assumption; [apply MI, M|]. intros s c H. unfold enabled. rewrite B. apply F, H.
Qed.

(** Bus accesses. *)
Lemma off_mod a : Z.land a 0xffffff = a mod 0x1000000.
Proof. change 0xffffff with (Z.ones 24). rewrite Z.land_ones by lia. reflexivity. Qed.
Lemma read_cases k off k' v : read k off = Some (k', v) -> k' = k \/
  exists c, 0x200000 <= off /\ c = (off - 0x200000) / 0x1000 /\ (off - 0x200000) mod 0x1000 = 4 /\ c < p_nc k /\ claim k c = Some (k', v).
Proof.
  unfold read. intros E. destruct (off <? 0x1000); [destruct (_ <? _); [left; congruence|discriminate]|].
  destruct (off <? 0x2000); [destruct (_ <? _); left; congruence|].
  destruct (Z.ltb_spec off 0x200000).
  { destruct (_ <=? _); [left; congruence|]. destruct (_ <=? _); [left; congruence|]. destruct (_ <=? _); [left; congruence|discriminate]. }
  destruct (Z.leb_spec (p_nc k) (Z.shiftr (off - 0x200000) 12)); [left; congruence|]. destruct (_ =? 0); [left; congruence|].
  destruct (Z.eqb_spec (Z.land (off - 0x200000) 0xfff) 4) as [F|F]; [|left; congruence]. right.
  exists (Z.shiftr (off - 0x200000) 12). split; [lia|]. split; [apply Z.shiftr_div_pow2; lia|]. split; [|split; [assumption|exact E]].
  change 0xfff with (Z.ones 12) in F. rewrite Z.land_ones in F by lia. exact F.
Qed.
(** A load either changes nothing, or is one claim (or two, for an 8-byte load). *)
Inductive loads (k : plic) : plic -> Prop :=
| loads_none : loads k k
| loads_claim c k1 id k2 : claim k c = Some (k1, id) -> loads k1 k2 -> loads k k2.
Lemma loads_app a b c : loads a b -> loads b c -> loads a c.
Proof. induction 1; intros; [assumption|]. econstructor; [eassumption|auto]. Qed.
Lemma read_loads k off k' v : read k off = Some (k', v) -> loads k k'.
Proof. intros E. destruct (read_cases _ _ _ _ E) as [->|(c & _ & _ & _ & _ & C)]; [constructor|]. econstructor; [exact C|constructor]. Qed.
Lemma load_loads k a n k' v : load k a n = Some (k', v) -> loads k k'.
Proof.
  unfold load. intros E. destruct (_ || _).
  - destruct (read k _) as [[k1 x]|] eqn:R; [|discriminate]. assert (k1 = k') as <- by congruence. eapply read_loads, R.
  - destruct (n =? 8).
    + destruct (read k _) as [[k1 x]|] eqn:R; [|discriminate]. destruct (read k1 _) as [[k2 y]|] eqn:R2; [|discriminate].
      assert (k2 = k') as <- by congruence. eapply loads_app; [eapply read_loads, R|eapply read_loads, R2].
    + assert (k = k') as <- by congruence. constructor.
Qed.
Lemma claim_inv k c k' id : cinv k -> minv k -> claim k c = Some (k', id) -> cinv k' /\ minv k'.
Proof.
  intros I M E. destruct (claim_spec _ _ _ _ I E) as [(-> & _)|H]; [auto|]. split; [eapply cinv_claim; eassumption|].
  destruct H as (_ & _ & _ & _ & _ & _ & _ & En & _ & _ & Mp & _). destruct M as [M1 M2]. constructor; [rewrite Mp; exact M1|]. intros s d. unfold enabled. rewrite Mp, En. apply M2.
Qed.
Lemma loads_inv k k' : loads k k' -> cinv k -> minv k -> cinv k' /\ minv k'.
Proof.
  induction 1 as [|k c k1 id k2 C L IH]; intros I M; [auto|]. destruct (claim_inv _ _ _ _ I M C). apply IH; assumption.
Qed.
Definition complete_addr (c : Z) (a : Z) : Prop := a mod 0x1000000 = a_claim c.
Inductive wrote (k : plic) (a v : Z) : plic -> Prop :=
| wrote_nothing : wrote k a v k
| wrote_prio s : s = (a mod 0x1000000) / 8 -> 0 <= s < p_ns k -> a mod 0x1000000 < 0x1000 -> wrote k a v (write_priority k (a mod 0x1000000) v)
| wrote_pending k' : 0x1000 <= a mod 0x1000000 < 0x2000 -> wrote k a v k'
| wrote_enable k' : 0x2000 <= a mod 0x1000000 < 0x200000 -> write_enable k (a mod 0x1000000) v = Some k' -> wrote k a v k'
| wrote_thr c k' : 0 <= c < p_nc k -> a mod 0x1000000 = a_threshold c -> write_threshold k c v = Some k' -> wrote k a v k'
| wrote_complete c : 0 <= c < p_nc k -> complete_addr c a -> wrote k a v (complete k c v).
Lemma write_wrote k a v k' : write k (a mod 0x1000000) v = Some k' -> wrote k a v k'.
Proof.
  pose proof (Z.mod_pos_bound a 0x1000000 ltac:(lia)) as B. unfold write. set (off := a mod 0x1000000) in *. intros E.
  destruct (Z.ltb_spec off 0x1000).
  { assert (k' = write_priority k off v) as -> by congruence. destruct (Z_lt_ge_dec (off / 8) (p_ns k)).
    - apply (wrote_prio k a v (off / 8)); [reflexivity|split; [apply Z.div_pos; lia|assumption]|assumption].
    - unfold write_priority. assert (Z.shiftr off 3 = off / 8) as -> by (apply Z.shiftr_div_pow2; lia). destruct (Z.leb_spec (p_ns k) (off / 8)); [|lia]. constructor. }
  destruct (Z.ltb_spec off 0x2000); [apply wrote_pending; fold off; lia|].
  destruct (Z.ltb_spec off 0x200000); [apply wrote_enable; [fold off; lia|exact E]|].
  assert (Z.shiftr (off - 0x200000) 12 = (off - 0x200000) / 0x1000) as Sh by (apply Z.shiftr_div_pow2; lia). rewrite Sh in E.
  assert (Z.land (off - 0x200000) 0xfff = (off - 0x200000) mod 0x1000) as La by (change 0xfff with (Z.ones 12); apply Z.land_ones; lia). rewrite La in E.
  pose proof (Z.div_mod (off - 0x200000) 0x1000 ltac:(lia)) as D. pose proof (Z.div_pos (off - 0x200000) 0x1000 ltac:(lia) ltac:(lia)) as P.
  set (c := (off - 0x200000) / 0x1000) in *. set (r := (off - 0x200000) mod 0x1000) in *.
  destruct (Z.leb_spec (p_nc k) c); [assert (k = k') as <- by congruence; constructor|].
  destruct (Z.eqb_spec r 0); [apply (wrote_thr k a v c); [lia|unfold a_threshold; fold off; lia|exact E]|].
  destruct (Z.eqb_spec r 4).
  - assert (k' = complete k c v) as -> by congruence. apply wrote_complete; [lia|]. unfold complete_addr, a_claim. fold off. lia.
  - assert (k = k') as <- by congruence. constructor.
Qed.
Lemma store_wrote k a n v k' : store k a n v = Some k' -> exists x, inw 32 x /\ wrote k a x k'.
Proof.
  unfold store. rewrite off_mod. intros E. destruct ((n =? 1) || (n =? 2) || (n =? 4)) eqn:S.
  - exists (wrap (8 * n) v). split; [|apply write_wrote, E].
    assert (n = 1 \/ n = 2 \/ n = 4) as [-> | [-> | ->]].
    { apply orb_prop in S as [S|S]; [apply orb_prop in S as [S|S]|]; apply Z.eqb_eq in S; auto. }
    + apply (inw_weaken 8 32); [lia|apply wrap_range; lia].
    + apply (inw_weaken 16 32); [lia|apply wrap_range; lia].
    + apply wrap_range; lia.
  - destruct (n =? 8).
    + exists (wrap 32 v). split; [apply wrap_range; lia|apply write_wrote, E].
    + exists 0. assert (k = k') as <- by congruence. split; [unfold inw; lia|constructor].
Qed.
Lemma write_priority_eq k a v : let off := a mod 0x1000000 in off < 0x1000 -> off / 8 < p_ns k ->
  (p_prio k (off / 8) = 0 -> p_gpend k (off / 8) = true -> p_ready k (off / 8) = true -> False) ->
  write_priority k off v = set_prio k (upd (p_prio k) (off / 8) v).
Proof.
  intros off H1 H2 G. unfold write_priority. assert (Z.shiftr off 3 = off / 8) as -> by (apply Z.shiftr_div_pow2; lia).
  destruct (Z.leb_spec (p_ns k) (off / 8)); [lia|]. cbn [p_ready p_gpend set_prio].
  destruct (Z.eqb_spec (p_prio k (off / 8)) 0); [|reflexivity]. destruct (negb (v =? 0)); [|reflexivity]. cbn [andb].
  destruct (p_ready k (off / 8)); [|reflexivity]. destruct (p_gpend k (off / 8)); [|reflexivity]. exfalso. apply G; auto.
Qed.
Lemma same_minv k k' : p_map k' = p_map k -> p_en k' = p_en k -> minv k -> minv k'.
Proof. intros A B [M1 M2]. constructor; [rewrite A; exact M1|]. intros s c. unfold enabled. rewrite A, B. apply M2. Qed.
Lemma set_interrupt_frame k s v l : let k' := set_interrupt k s v l in
  p_map k' = p_map k /\ p_en k' = p_en k /\ p_cc k' = p_cc k /\ p_prio k' = p_prio k /\ p_ns k' = p_ns k /\ p_nc k' = p_nc k /\ p_if k' = p_if k /\ p_thr k' = p_thr k /\
  p_gpend k' = (if l && (0 <=? s) && (s <? p_ns k) then upd (p_gpend k) s v else p_gpend k).
Proof.
  unfold set_interrupt. destruct (Z.ltb_spec s 0); cbn [orb].
  { destruct (Z.leb_spec 0 s); [lia|]. rewrite andb_false_r. repeat split. }
  destruct (Z.leb_spec 0 s); [|lia]. rewrite andb_true_r. destruct (Z.leb_spec (p_ns k) s).
  { destruct (Z.ltb_spec s (p_ns k)); [lia|]. rewrite andb_false_r. repeat split. }
  destruct (Z.ltb_spec s (p_ns k)); [|lia]. rewrite andb_true_r.
  destruct v, l; cbn [negb andb orb]; try (repeat split; fail); destruct (p_ready k s); cbn [negb orb]; try (repeat split; fail).
  - cbn [p_prio set_gw]. destruct (_ =? 0); [repeat split|]. match goal with |- context [set_plic_pending ?k0 s] => destruct (spp_effect k0 s) as [(A & A2 & B & C & D & E & F & G & H' & I) _] end. repeat split; assumption.
  - destruct (_ =? 0); [repeat split|]. match goal with |- context [set_plic_pending ?k0 s] => destruct (spp_effect k0 s) as [(A & A2 & B & C & D & E & F & G & H' & I) _] end. repeat split; assumption.
Qed.
Lemma complete_frame k c v : let k' := complete k c v in
  p_map k' = p_map k /\ p_en k' = p_en k /\ p_prio k' = p_prio k /\ p_gpend k' = p_gpend k /\ p_ns k' = p_ns k /\ p_nc k' = p_nc k /\ p_if k' = p_if k /\ p_thr k' = p_thr k.
Proof.
  unfold complete. destruct (_ || _); [repeat split|]. destruct (negb _); [repeat split|]. destruct (_ && _); [|repeat split].
  match goal with |- context [set_plic_pending ?k0 ?s] => destruct (spp_effect k0 s) as [(A & A2 & B & C & D & E & F & G & H' & I) _] end. repeat split; assumption.
Qed.
Lemma step_inv k o k' v : good k o -> step k o = Some (k', v) -> cinv k -> minv k -> cinv k' /\ minv k'.
Proof.
  intros G E I M. destruct o as [ss cs|c|s x l|a n|a n x]; cbn [step] in E.
  - destruct (configure_effect k ss cs) as ((A & A1 & B & B1 & C & D & _) & P & MI). destruct (configure k ss cs) as [k1 ok]. cbn [fst] in *. assert (k1 = k') as <- by congruence.
    split; [|apply MI; assumption]. apply (cinv_eq k); try assumption; [apply same_pend, C|]. apply P, I.
  - destruct (_ || _); [discriminate|]. apply some_eq in E. injection E as -> _. split; [|apply (same_minv k); auto]. apply (cinv_eq k); auto. apply I.
  - apply some_eq in E. injection E as -> _. split; [apply cinv_set_interrupt, I|]. destruct (set_interrupt_frame k s x l) as (A & B & _). apply (same_minv k); assumption.
  - apply (loads_inv k k'); try assumption. eapply load_loads, E.
  - destruct (store k a n x) as [k1|] eqn:S; [|discriminate]. assert (k1 = k') as -> by congruence. clear E.
    destruct (store_wrote _ _ _ _ _ S) as (y & Hy & W). destruct G as [G1 G2]. destruct W as [|s Es Hs Ho|k' H|k' H W|c k' Hc Ha W|c Hc Ha].
    + auto.
    + rewrite write_priority_eq; [|assumption|rewrite <- Es; lia|intros; eapply G2; eassumption]. split; [|apply (same_minv k); auto].
      apply (cinv_eq k); auto. intros t. cbn [p_prio set_prio]. unfold upd. destruct (t =? _); [apply Hy|apply I].
    + lia.
    + destruct (minv_enable k _ y k' M Hy W) as (C & _ & M' & _). split; [eapply cinv_core; eassumption|exact M'].
    + destruct (threshold_effect k c y k' W) as (C & Ee & Em & _). split; [eapply cinv_core; eassumption|apply (same_minv k); assumption].
    + split; [apply cinv_complete, I|]. destruct (complete_frame k c y) as (A & B & _). apply (same_minv k); assumption.
Qed.
Lemma init_cinv ns nc : cinv (init ns nc) /\ minv (init ns nc).
Proof.
  split; constructor.
  - intros s. cbn. lia.
  - intros s. rewrite pending_bit_spec. cbn [init p_pend]. rewrite Z.bits_0. discriminate.
  - intros s Hs _. rewrite pending_bit_spec. cbn [init p_pend p_cc]. rewrite Z.bits_0. split; [reflexivity|lia].
  - intros s. rewrite pending_bit_spec. cbn [init p_pend]. rewrite Z.bits_0. discriminate.
  - intros c d. cbn. lia.
  - constructor.
  - intros s c. unfold enabled. cbn [init p_en p_map]. rewrite Z.bits_0. cbn. split; [contradiction|discriminate].
Qed.
Lemma run_inv l : forall k k' vs, all_good k l -> run k l = Some (k', vs) -> cinv k -> minv k -> cinv k' /\ minv k'.
Proof.
  induction l as [|o l IH]; intros k k' vs G E I M; cbn [run all_good] in *.
  - assert (k = k') as <- by congruence. auto.
  - destruct G as [G1 G2]. destruct (step k o) as [[k1 v]|] eqn:S; [|discriminate]. destruct (step_inv _ _ _ _ G1 S I M) as [I1 M1].
    destruct (run k1 l) as [[k2 vs2]|] eqn:R; [|discriminate]. assert (k2 = k') as <- by congruence. eapply IH; eassumption.
Qed.
Lemma reach_inv ns nc l k : reach ns nc l k -> cinv k /\ minv k.
Proof. intros (G & vs & E). destruct (init_cinv ns nc). eapply run_inv; eassumption. Qed.
