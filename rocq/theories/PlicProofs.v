(** Proofs for C47 and C48. *)
From Coq Require Import ZArith Bool List Lia.
From Verif Require Import Bits PlicSpec PlicModel.
Import ListNotations.
Local Open Scope Z_scope.

Lemma upd_same {A} (f : Z -> A) i v : upd f i v i = v.
Proof. unfold upd. rewrite Z.eqb_refl. reflexivity. Qed.
Lemma upd_other {A} (f : Z -> A) i v j : j <> i -> upd f i v j = f j.
Proof. intros H. unfold upd. destruct (Z.eqb_spec j i); [contradiction|reflexivity]. Qed.

(** Pending bits. *)
Lemma land_bit x b : 0 <= b -> negb (Z.land x (Z.shiftl 1 b) =? 0) = Z.testbit x b.
Proof.
  intros Hb. rewrite Z.shiftl_1_l. destruct (Z.testbit x b) eqn:E.
  - destruct (Z.eqb_spec (Z.land x (2 ^ b)) 0) as [H|]; [|reflexivity]. exfalso.
    assert (Z.testbit (Z.land x (2 ^ b)) b = false) as F by (rewrite H; apply Z.bits_0).
    rewrite Z.land_spec, Z.pow2_bits_true, E in F by lia. discriminate.
  - destruct (Z.eqb_spec (Z.land x (2 ^ b)) 0) as [|H]; [reflexivity|]. exfalso. apply H. apply Z.bits_inj'. intros i Hi.
    rewrite Z.land_spec, Z.bits_0. destruct (Z.eq_dec i b) as [->|D]; [rewrite E; reflexivity|].
    rewrite Z.pow2_bits_false by lia. apply andb_false_r.
Qed.
Lemma idx s : Z.shiftr s 5 = s / 32 /\ Z.land s 0x1f = s mod 32.
Proof. split; [apply Z.shiftr_div_pow2; lia|]. change 0x1f with (Z.ones 5). rewrite Z.land_ones by lia. reflexivity. Qed.
Lemma pending_bit_spec k s : is_pending k s = Z.testbit (p_pend k (s / 32)) (s mod 32).
Proof. unfold is_pending. destruct (idx s) as [-> ->]. apply land_bit. apply Z.mod_pos_bound. lia. Qed.
Lemma set_pending_spec k s v s' : is_pending (set_pending k s v) s' = if s' =? s then v else is_pending k s'.
Proof.
  rewrite !pending_bit_spec. unfold set_pending. cbn [p_pend set_pend]. destruct (idx s) as [-> ->]. rewrite Z.shiftl_1_l.
  pose proof (Z.mod_pos_bound s 32 ltac:(lia)) as B. pose proof (Z.mod_pos_bound s' 32 ltac:(lia)) as B'.
  unfold upd. destruct (Z.eqb_spec (s' / 32) (s / 32)) as [E|E].
  - assert ((s' =? s) = (s' mod 32 =? s mod 32)) as ->.
    { pose proof (Z.div_mod s 32). pose proof (Z.div_mod s' 32). destruct (Z.eqb_spec s' s) as [X|X]; destruct (Z.eqb_spec (s' mod 32) (s mod 32)) as [Y|Y]; try reflexivity; exfalso; [subst s'; contradiction|lia]. }
    rewrite E. destruct (Z.eqb_spec (s' mod 32) (s mod 32)) as [F|F].
    + rewrite F. destruct v; [rewrite Z.lor_spec, Z.pow2_bits_true by lia; apply orb_true_r|].
      rewrite Z.land_spec, wnot_testbit, Z.pow2_bits_true by lia. destruct (Z.ltb_spec (s mod 32) 32); [cbn; apply andb_false_r|lia].
    + destruct v; [rewrite Z.lor_spec, Z.pow2_bits_false by lia; apply orb_false_r|].
      rewrite Z.land_spec, wnot_testbit, Z.pow2_bits_false by lia. destruct (Z.ltb_spec (s' mod 32) 32); [apply andb_true_r|lia].
  - destruct (Z.eqb_spec s' s) as [->|]; [contradiction|reflexivity].
Qed.

(** Nothing changes but the lines. *)
Definition irq_only (k k' : plic) : Prop :=
  p_ns k' = p_ns k /\ p_nc k' = p_nc k /\ p_ready k' = p_ready k /\ p_gpend k' = p_gpend k /\ p_prio k' = p_prio k /\
  p_pend k' = p_pend k /\ p_en k' = p_en k /\ p_thr k' = p_thr k /\ p_cc k' = p_cc k /\ p_if k' = p_if k /\ p_map k' = p_map k.
Lemma irq_only_refl k : irq_only k k.
Proof. repeat split. Qed.
Lemma irq_only_set k c b : irq_only k (set_irq k c b).
Proof. repeat split. Qed.
Lemma irq_only_trans a b c : irq_only a b -> irq_only b c -> irq_only a c.
Proof. unfold irq_only. intuition congruence. Qed.
Lemma irq_only_pending k k' s : irq_only k k' -> is_pending k' s = is_pending k s.
Proof. intros H. unfold is_pending. destruct H as (_ & _ & _ & _ & _ & -> & _). reflexivity. Qed.

Definition raise (priority : Z) (k : plic) (c : Z) : plic :=
  if priority <=? p_thr k c then k else if negb (p_if k c) then k else set_irq k c true.
Lemma raise_only priority k c : irq_only k (raise priority k c).
Proof. unfold raise. destruct (_ <=? _); [apply irq_only_refl|]. destruct (negb _); [apply irq_only_refl|apply irq_only_set]. Qed.
Lemma raises_only priority l k : irq_only k (fold_left (raise priority) l k).
Proof.
  revert k. induction l as [|c l IH]; intros k; [apply irq_only_refl|]. cbn [fold_left].
  eapply irq_only_trans; [apply raise_only|apply IH].
Qed.
(** Lines only go up, and the ones asked for are up. *)
Lemma raises_up priority l k c : p_line k c = true -> p_line (fold_left (raise priority) l k) c = true.
Proof.
  revert k. induction l as [|d l IH]; intros k H; [exact H|]. cbn [fold_left]. apply IH. unfold raise.
  destruct (_ <=? _); [exact H|]. destruct (negb _); [exact H|]. cbn [p_line set_irq]. unfold upd. destruct (c =? d); [reflexivity|exact H].
Qed.
Lemma raises_line priority l k c : In c l -> p_thr k c < priority -> p_if k c = true -> p_line (fold_left (raise priority) l k) c = true.
Proof.
  revert k. induction l as [|d l IH]; intros k I T F; [contradiction|]. cbn [fold_left]. destruct I as [->|I].
  - apply raises_up. unfold raise. destruct (Z.leb_spec priority (p_thr k c)); [lia|]. rewrite F. cbn [negb p_line set_irq]. apply upd_same.
  - destruct (raise_only priority k d) as (_ & _ & _ & _ & _ & _ & _ & E1 & _ & E2 & _). apply IH; [exact I|rewrite E1; exact T|rewrite E2; exact F].
Qed.

(** The effect of SetPlicPendingInterrupt. *)
Definition same_but_pend (k k' : plic) : Prop :=
  p_ns k' = p_ns k /\ p_nc k' = p_nc k /\ p_ready k' = p_ready k /\ p_gpend k' = p_gpend k /\ p_prio k' = p_prio k /\
  p_en k' = p_en k /\ p_thr k' = p_thr k /\ p_cc k' = p_cc k /\ p_if k' = p_if k /\ p_map k' = p_map k.
Definition acceptable (k : plic) (s : Z) : bool := (0 <? s) && (s <? p_ns k) && negb (p_prio k s =? 0).
Lemma spp_effect k s : let k' := set_plic_pending k s in
  same_but_pend k k' /\ (forall s', is_pending k' s' = is_pending k s' || ((s' =? s) && acceptable k s)).
Proof.
  intros k'. subst k'. unfold set_plic_pending, acceptable.
  assert (forall b, b = false -> same_but_pend k k /\ (forall s', is_pending k s' = is_pending k s' || ((s' =? s) && b))) as St.
  { intros b ->. split; [repeat split|]. intros s'. rewrite andb_false_r, orb_false_r. reflexivity. }
  destruct (Z.leb_spec s 0) as [L|L]; cbn [orb].
  { apply St. destruct (Z.ltb_spec 0 s); [lia|reflexivity]. }
  destruct (Z.leb_spec (p_ns k) s) as [G|G].
  { apply St. destruct (Z.ltb_spec s (p_ns k)); [lia|apply andb_false_intro1, andb_false_r]. }
  destruct (is_pending k s) eqn:P.
  { split; [repeat split|]. intros s'. destruct (Z.eqb_spec s' s) as [->|]; [rewrite P; reflexivity|cbn [andb]; rewrite orb_false_r; reflexivity]. }
  destruct (Z.eqb_spec (p_prio k s) 0) as [E|E].
  { apply St. apply andb_false_r. }
  match goal with |- context [fold_left ?f ?l ?k0] => change f with (raise (p_prio k s)); pose proof (raises_only (p_prio k s) l k0) as R; set (k' := fold_left _ l k0) in * end.
  split.
  - destruct R as (? & ? & ? & ? & ? & ? & ? & ? & ? & ? & ?). repeat split; assumption.
  - intros s'. rewrite (irq_only_pending _ _ s' R), set_pending_spec. destruct (Z.eqb_spec s' s) as [->|].
    + destruct (Z.ltb_spec 0 s); [|lia]. destruct (Z.ltb_spec s (p_ns k)); [|lia]. rewrite P. reflexivity.
    + cbn [andb]. rewrite orb_false_r. reflexivity.
Qed.
Lemma spp_line k s c : acceptable k s = true -> is_pending k s = false -> In c (contexts_of k s) -> p_thr k c < p_prio k s -> p_if k c = true ->
  p_line (set_plic_pending k s) c = true.
Proof.
  unfold acceptable. intros A P I T F. apply andb_prop in A as [A E]. apply andb_prop in A as [A B]. apply Z.ltb_lt in A, B. apply negb_true_iff, Z.eqb_neq in E.
  unfold set_plic_pending. destruct (Z.leb_spec s 0); [lia|]. destruct (Z.leb_spec (p_ns k) s); [lia|]. cbn [orb]. rewrite P.
  destruct (Z.eqb_spec (p_prio k s) 0); [contradiction|].
  match goal with |- context [fold_left ?f ?l ?k0] => change f with (raise (p_prio k s)) end. apply raises_line; assumption.
Qed.

(** The claim scan: a running best. *)
Definition cand (k : plic) (c : Z) (s : Z) : Prop := In s (sources_of k c) /\ is_pending k s = true.
Definition running (k : plic) (seen : list Z) (r : Z * Z * Z) : Prop :=
  let '(id, pr, _) := r in
  (id = 0 /\ pr = 0 /\ (forall s, In s seen -> is_pending k s = true -> p_prio k s = 0)) \/
  (In id seen /\ is_pending k id = true /\ pr = p_prio k id /\ 0 < pr /\ id <> 0 /\
   forall s, In s seen -> is_pending k s = true -> p_prio k s < pr \/ (p_prio k s = pr /\ id <= s)).
Lemma scan_gen k l : (forall s, 0 <= p_prio k s) -> (forall s, In s l -> is_pending k s = true -> 0 < s) ->
  running k l (claim_scan k l).
Proof.
  intros P. unfold claim_scan. match goal with |- context [fold_left ?f] => set (f0 := f) end.
  rewrite <- (rev_involutive l). generalize (rev l). clear l. intros l. rewrite <- fold_left_rev_right, rev_involutive. revert l.
  induction l as [|x l IH]; intros N.
  - left. repeat split. intros s [].
  - cbn [rev fold_right]. assert (running k (rev l) (fold_right (fun y r => f0 r y) (0, 0, 0) l)) as R.
    { apply IH. intros s Hs. apply N. cbn [rev]. apply in_or_app. left. exact Hs. }
    destruct (fold_right _ _ l) as [[id pr] n]. unfold f0.
    assert (forall s, In s (rev l ++ [x]) <-> In s (rev l) \/ s = x) as Ap.
    { intros s. rewrite in_app_iff. cbn. intuition congruence. }
    assert (is_pending k x = true -> 0 < x) as Nx by (apply N; cbn [rev]; apply Ap; right; reflexivity). pose proof (P x) as Px.
    destruct (is_pending k x) eqn:Q; cbn [negb].
    + specialize (Nx eq_refl). destruct (Z.ltb_spec (p_prio k x) pr) as [L|L].
      * cbn [running] in *. destruct R as [(-> & -> & H)|(I & J & E & F & G & H)]; [lia|]. right. rewrite Ap. repeat split; auto.
        intros s. rewrite Ap. intros [S| ->] D; [apply H; assumption|left; exact L].
      * destruct (Z.eqb_spec pr (p_prio k x)) as [E0|E0]; cbn [andb]; [destruct (Z.ltb_spec id x) as [M|M]|].
        -- cbn [running] in *. destruct R as [(-> & -> & H)|(I & J & E & F & G & H)].
           ++ left. repeat split. intros s. rewrite Ap. intros [S| ->] D; [apply H; assumption|symmetry; exact E0].
           ++ right. rewrite Ap. repeat split; auto. intros s. rewrite Ap. intros [S| ->] D; [apply H; assumption|right; lia].
        -- cbn [running] in *. destruct R as [(-> & -> & H)|(I & J & E & F & G & H)]; [lia|].
           right. rewrite Ap. repeat split; auto; try lia. intros s. rewrite Ap. intros [S| ->] D; [destruct (H s S D) as [|[]]; [left; lia|right; lia]|right; lia].
        -- cbn [running] in *. right. rewrite Ap. destruct R as [(-> & -> & H)|(I & J & E & F & G & H)].
           ++ repeat split; auto; try lia. intros s. rewrite Ap. intros [S| ->] D; [left; rewrite (H s S D); lia|right; lia].
           ++ repeat split; auto; try lia. intros s. rewrite Ap. intros [S| ->] D; [destruct (H s S D) as [|[]]; left; lia|right; lia].
    + cbn [running] in *. destruct R as [(-> & -> & H)|(I & J & E & F & G & H)].
      * left. repeat split. intros s. rewrite Ap. intros [S| ->] D; [apply H; assumption|congruence].
      * right. rewrite Ap. repeat split; auto. intros s. rewrite Ap. intros [S| ->] D; [apply H; assumption|congruence].
Qed.
(** The counter is the number of times the best was replaced; if the scan meets at most one
    pending source of nonzero priority, at most one. *)
Lemma scan_count k l : NoDup l -> (forall s, 0 <= p_prio k s) -> (forall s, In s l -> is_pending k s = true -> 0 < s) ->
  (forall s t, In s l -> In t l -> is_pending k s = true -> is_pending k t = true -> 0 < p_prio k s -> 0 < p_prio k t -> s = t) ->
  let '(id, _, n) := claim_scan k l in n = if id =? 0 then 0 else 1.
Proof.
  intros ND P N U. unfold claim_scan. match goal with |- context [fold_left ?f] => set (f0 := f) end.
  assert (forall l0 r, (forall s, In s l0 -> is_pending k s = true -> 0 < p_prio k s -> False) -> (forall s, In s l0 -> is_pending k s = true -> 0 < s) ->
    (let '(id, pr, n) := r in 0 <= pr /\ 0 <= id /\ (pr = 0 -> id = 0)) -> fold_left f0 l0 r = r) as St.
  { induction l0 as [|x l0 IH]; intros [[id pr] n] H N0 Hr; [reflexivity|]. cbn [fold_left].
    assert (f0 (id, pr, n) x = (id, pr, n)) as ->.
    { unfold f0. destruct (is_pending k x) eqn:Q; cbn [negb]; [|reflexivity]. pose proof (P x). assert (p_prio k x = 0) as E.
      { destruct (Z.eq_dec (p_prio k x) 0); [assumption|]. exfalso. apply (H x); [left; reflexivity|exact Q|lia]. }
      rewrite E. destruct (Z.ltb_spec 0 pr); [reflexivity|]. assert (pr = 0) by lia. destruct Hr as (_ & _ & Hr). rewrite (Hr H2), H2. cbn [Z.eqb andb].
      pose proof (N0 x (or_introl eq_refl) Q). destruct (Z.ltb_spec 0 x); [reflexivity|lia]. }
    apply IH; [intros s Hs; apply H; right; exact Hs|intros s Hs; apply N0; right; exact Hs|exact Hr]. }
  induction l as [|x l IH]; [reflexivity|]. cbn [fold_left].
  inversion ND as [|? ? NI ND']; subst.
  destruct (is_pending k x) eqn:Q; [destruct (Z.eq_dec (p_prio k x) 0) as [E|E]|].
  - assert (f0 (0, 0, 0) x = (0, 0, 0)) as ->.
    { unfold f0. rewrite Q, E. cbn [negb]. change (0 <? 0) with false. cbn [Z.eqb andb]. pose proof (N x (or_introl eq_refl) Q). destruct (Z.ltb_spec 0 x); [reflexivity|lia]. }
    apply IH; [exact ND'|intros; apply N; [right; assumption|assumption]|intros s t Hs Ht; apply U; right; assumption].
  - pose proof (P x) as Px. pose proof (N x (or_introl eq_refl) Q) as Nx.
    assert (f0 (0, 0, 0) x = (x, p_prio k x, 1)) as ->.
    { unfold f0. rewrite Q. cbn [negb]. destruct (Z.ltb_spec (p_prio k x) 0); [lia|]. destruct (Z.eqb_spec 0 (p_prio k x)); [lia|]. reflexivity. }
    rewrite St.
    + destruct (Z.eqb_spec x 0); [lia|reflexivity].
    + intros s Hs D F. apply NI. rewrite (U x s); auto; [left; reflexivity|right; exact Hs|lia].
    + intros s Hs. apply N. right. exact Hs.
    + lia.
  - assert (f0 (0, 0, 0) x = (0, 0, 0)) as -> by (unfold f0; rewrite Q; reflexivity).
    apply IH; [exact ND'|intros; apply N; [right; assumption|assumption]|intros s t Hs Ht; apply U; right; assumption].
Qed.
