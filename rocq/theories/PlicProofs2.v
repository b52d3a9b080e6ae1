(** Invariants of the PLIC over histories (C47). *)
From Coq Require Import ZArith Bool List Lia.
From Verif Require Import Bits PlicSpec PlicModel PlicHist PlicProofs.
Import ListNotations.
Local Open Scope Z_scope.

Record cinv (k : plic) : Prop := {
  i_prio : forall s, 0 <= p_prio k s;
  i_pos : forall s, is_pending k s = true -> 0 < s < p_ns k;
  i_ready : forall s, 0 < s -> p_ready k s = true -> is_pending k s = false /\ forall c, p_cc k c <> s;
  i_pend : forall s, is_pending k s = true -> forall c, p_cc k c <> s;
  i_hold : forall c d, p_cc k c = p_cc k d -> 0 < p_cc k c -> c = d }.
Record minv (k : plic) : Prop := {
  m_nodup : NoDup (p_map k);
  m_en : forall s c, In (s, c) (p_map k) <-> enabled k c s }.

Lemma cinv_eq k k' : p_ns k' = p_ns k -> p_ready k' = p_ready k -> p_cc k' = p_cc k -> (forall s, is_pending k' s = is_pending k s) ->
  (forall s, 0 <= p_prio k' s) -> cinv k -> cinv k'.
Proof.
  intros A B C D E [I1 I2 I3 I4 I5]. constructor.
  - exact E.
  - intros s. rewrite D, A. apply I2.
  - intros s. rewrite D, B, C. apply I3.
  - intros s. rewrite D, C. apply I4.
  - rewrite C. exact I5.
Qed.
Lemma cinv_irq k k' : irq_only k k' -> cinv k -> cinv k'.
Proof.
  intros H I. pose proof H as H0. destruct H0 as (A & _ & B & _ & P & _ & _ & _ & C & _). apply (cinv_eq k); try assumption.
  - intros s. apply irq_only_pending, H.
  - rewrite P. apply I.
Qed.
Lemma same_pend k k' : p_pend k' = p_pend k -> forall s, is_pending k' s = is_pending k s.
Proof. intros E s. unfold is_pending. rewrite E. reflexivity. Qed.

(** Making a source pending. *)
Lemma cinv_spp k s : cinv k -> (0 < s -> p_ready k s = false) -> (0 < s -> forall c, p_cc k c <> s) -> cinv (set_plic_pending k s).
Proof.
  intros I R C. destruct (spp_effect k s) as [(A & _ & B & _ & P & _ & _ & D & _) Pe]. set (k' := set_plic_pending k s) in *.
  assert (forall t, is_pending k' t = true -> is_pending k t = true \/ (t = s /\ 0 < s < p_ns k)) as Pn.
  { intros t H. rewrite Pe in H. apply orb_prop in H as [H|H]; [left; exact H|right]. apply andb_prop in H as [E H]. apply Z.eqb_eq in E.
    unfold acceptable in H. apply andb_prop in H as [H _]. apply andb_prop in H as [H1 H2]. apply Z.ltb_lt in H1, H2. lia. }
  destruct I as [I1 I2 I3 I4 I5]. constructor.
  - rewrite P. exact I1.
  - intros t H. rewrite A. destruct (Pn t H) as [H0|[-> H0]]; [apply I2, H0|exact H0].
  - intros t Ht. rewrite B, D. intros Rt. destruct (I3 t Ht Rt) as [Q1 Q2]. split; [|exact Q2].
    rewrite Pe, Q1. cbn [orb]. destruct (Z.eqb_spec t s) as [->|]; [|reflexivity]. rewrite R in Rt by exact Ht. discriminate.
  - intros t H c. rewrite D. destruct (Pn t H) as [H0|[-> H0]]; [apply I4, H0|apply C, H0].
  - rewrite D. exact I5.
Qed.
Lemma cinv_set_interrupt k s v l : cinv k -> cinv (set_interrupt k s v l).
Proof.
  intros I. unfold set_interrupt. destruct (_ || _) eqn:R; [exact I|]. destruct (_ && _); [exact I|].
  assert (forall f, cinv (set_gw k (p_ready k) f)) as G.
  { intros f. apply (cinv_eq k); try reflexivity; [apply I|exact I]. }
  destruct (p_ready k s) eqn:Rd; cbn [negb orb]; [|destruct l; [apply G|exact I]].
  destruct v; cbn [negb]; [|destruct l; [apply G|exact I]].
  set (k1 := if l then _ else k). assert (cinv k1) as I1 by (destruct l; [apply G|exact I]).
  assert (p_ready k1 = p_ready k) as R1 by (destruct l; reflexivity). assert (p_cc k1 = p_cc k) as C1 by (destruct l; reflexivity).
  destruct (p_prio k1 s =? 0); [exact I1|]. apply cinv_spp.
  - destruct I1 as [J1 J2 J3 J4 J5]. constructor; try assumption. intros t Ht. cbn [p_ready set_gw]. unfold upd. destruct (t =? s); [discriminate|]. apply J3, Ht.
  - intros _. cbn [p_ready set_gw]. apply upd_same.
  - intros Hs c. cbn [p_cc set_gw]. rewrite C1. apply (i_ready k I s Hs Rd).
Qed.
Lemma cinv_complete k c id : cinv k -> cinv (complete k c id).
Proof.
  intros I. unfold complete. destruct (_ || _); [exact I|]. destruct (negb _); [exact I|].
  set (s := p_cc k c). set (k1 := set_cc k (upd (p_cc k) c 0)).
  assert (forall t d, 0 < t -> p_cc k1 d = t -> p_cc k d = t /\ d <> c) as C1.
  { intros t d Ht. cbn [k1 p_cc set_cc]. unfold upd. destruct (Z.eqb_spec d c); intros E; [lia|split; assumption]. }
  assert (0 < s -> forall d, p_cc k1 d <> s) as NH.
  { intros Hs d E. destruct (C1 s d Hs E) as [E1 E2]. apply E2. apply (i_hold k I); [rewrite E1; reflexivity|lia]. }
  assert (cinv k1) as I1.
  { destruct I as [J1 J2 J3 J4 J5]. constructor; try assumption.
    - intros t Ht Rt. destruct (J3 t Ht Rt) as [Q1 Q2]. split; [exact Q1|]. intros d E. destruct (C1 t d Ht E) as [E1 _]. exact (Q2 d E1).
    - intros t Pt d E. destruct (J2 t Pt) as [Ht _]. destruct (C1 t d Ht E) as [E1 _]. exact (J4 t Pt d E1).
    - intros d e E Hd. destruct (C1 _ d Hd eq_refl) as [E1 _]. destruct (C1 _ e Hd (eq_sym E)) as [E2 _]. apply J5; [congruence|rewrite E1; exact Hd]. }
  destruct (_ && _).
  - apply cinv_spp; [exact I1| |exact NH]. intros Hs. cbn [k1 p_ready set_cc]. destruct (p_ready k s) eqn:R; [|reflexivity].
    exfalso. apply (proj2 (i_ready k I s Hs R) c). reflexivity.
  - destruct I1 as [J1 J2 J3 J4 J5]. constructor; try assumption. intros t Ht. cbn [p_ready set_gw]. unfold upd. destruct (Z.eqb_spec t s) as [->|]; [|apply J3, Ht].
    intros _. split; [|apply NH, Ht]. change (is_pending (set_gw k1 (fun j => if j =? s then true else p_ready k1 j) (p_gpend k1)) s) with (is_pending k s).
    destruct (is_pending k s) eqn:P; [|reflexivity]. exfalso. apply (i_pend k I s P c). reflexivity.
Qed.

(** Claims. *)
Definition is_claim (k : plic) (c : Z) (k' : plic) (id : Z) : Prop :=
  0 <= c < p_nc k /\
  (forall s, is_pending k' s = is_pending k s && negb ((s =? id) && negb (id =? 0))) /\
  p_ns k' = p_ns k /\ p_nc k' = p_nc k /\ p_ready k' = p_ready k /\ p_gpend k' = p_gpend k /\ p_prio k' = p_prio k /\
  p_en k' = p_en k /\ p_thr k' = p_thr k /\ p_if k' = p_if k /\ p_map k' = p_map k /\
  p_cc k' = (if id =? 0 then p_cc k else upd (p_cc k) c id) /\
  ((id = 0 /\ none_eligible (cand k c) (p_prio k)) \/ (id <> 0 /\ best (cand k c) (p_prio k) id)).
Lemma claim_spec k c k' id : cinv k -> claim k c = Some (k', id) -> (k' = k /\ id = 0 /\ ~ 0 <= c < p_nc k) \/ is_claim k c k' id.
Proof.
  intros I. unfold claim. destruct ((c <? 0) || (p_nc k <=? c)) eqn:Rg.
  { intros E. injection E as <- <-. left. split; [reflexivity|]. split; [reflexivity|]. apply orb_prop in Rg as [R|R]; [apply Z.ltb_lt in R|apply Z.leb_le in R]; lia. }
  apply orb_false_iff in Rg as [R1 R2]. apply Z.ltb_ge in R1. apply Z.leb_gt in R2.
  destruct (existsb _ _); [discriminate|]. intros E. right.
  pose proof (scan_gen k (sources_of k c) (i_prio k I) (fun s _ P => proj1 (i_pos k I s P))) as Sc.
  destruct (claim_scan k (sources_of k c)) as [[i pr] n]. cbn [running] in Sc.
  assert ((i = 0 /\ none_eligible (cand k c) (p_prio k)) \/ (i <> 0 /\ best (cand k c) (p_prio k) i)) as B.
  { destruct Sc as [(-> & -> & H)|(I1 & I2 & -> & I4 & I5 & H)].
    - left. split; [reflexivity|]. intros s [S1 S2]. apply H; assumption.
    - right. split; [exact I5|]. split; [split; assumption|]. split; [exact I4|]. intros s [S1 S2]. apply H; assumption. }
  assert (exists k1 n1, (if negb (i =? 0) then (set_cc (set_pending k i false) (upd (p_cc k) c i), n - 1) else (k, n)) = (k1, n1) /\
    (forall s, is_pending k1 s = is_pending k s && negb ((s =? i) && negb (i =? 0))) /\
    p_ns k1 = p_ns k /\ p_nc k1 = p_nc k /\ p_ready k1 = p_ready k /\ p_gpend k1 = p_gpend k /\ p_prio k1 = p_prio k /\
    p_en k1 = p_en k /\ p_thr k1 = p_thr k /\ p_if k1 = p_if k /\ p_map k1 = p_map k /\ p_cc k1 = (if i =? 0 then p_cc k else upd (p_cc k) c i)) as (k1 & n1 & E1 & F).
  { destruct (Z.eqb_spec i 0) as [Z0|Z0]; cbn [negb]; eexists; eexists; (split; [reflexivity|]); repeat split.
    - intros s. rewrite andb_false_r, andb_true_r. reflexivity.
    - intros s. rewrite andb_true_r. change (is_pending (set_cc ?a ?b) s) with (is_pending a s). rewrite set_pending_spec. destruct (s =? i); [rewrite andb_false_r|rewrite andb_true_r]; reflexivity. }
  rewrite E1 in E. assert (i = id /\ irq_only k1 k') as [<- O].
  { destruct (n1 =? 0); [destruct (p_if k1 c); [|discriminate]|]; injection E as <- <-; (split; [reflexivity|]); [apply irq_only_set|apply irq_only_refl]. }
  destruct F as (F0 & F1 & F2 & F3 & F4 & F5 & F6 & F7 & F8 & F9 & F10). pose proof O as (O1 & O2 & O3 & O4 & O5 & _ & O7 & O8 & O9 & O10 & O11).
  split; [lia|]. split; [intros s; rewrite (irq_only_pending _ _ s O); apply F0|]. repeat split; try congruence; exact B.
Qed.
Lemma cinv_claim k c k' id : cinv k -> is_claim k c k' id -> cinv k'.
Proof.
  intros I (_ & P & A & _ & B & _ & Pr & _ & _ & _ & _ & C & Bst). destruct I as [J1 J2 J3 J4 J5].
  assert (id <> 0 -> is_pending k id = true) as Pid by (intros H; destruct Bst as [[H0 _]|[_ [[_ Q] _]]]; [contradiction|exact Q]).
  assert (forall s, is_pending k' s = true -> is_pending k s = true /\ (id <> 0 -> s <> id)) as Pn.
  { intros s H. rewrite P in H. apply andb_prop in H as [H1 H2]. split; [exact H1|]. intros D ->. rewrite Z.eqb_refl in H2. destruct (Z.eqb_spec id 0); [contradiction|discriminate]. }
  assert (forall d s, 0 < s -> p_cc k' d = s -> p_cc k d = s \/ (d = c /\ s = id)) as Cn.
  { intros d s Hs E. rewrite C in E. destruct (Z.eqb_spec id 0); [left; exact E|]. unfold upd in E. destruct (Z.eqb_spec d c); [right; split; congruence|left; exact E]. }
  constructor.
  - rewrite Pr. exact J1.
  - intros s H. rewrite A. apply J2, Pn, H.
  - intros s Hs. rewrite B. intros R. destruct (J3 s Hs R) as [Q1 Q2]. split; [rewrite P, Q1; reflexivity|].
    intros d E. destruct (Cn d s Hs E) as [E0|[_ ->]]; [exact (Q2 d E0)|]. rewrite Pid in Q1 by lia. discriminate.
  - intros s H d E. destruct (Pn s H) as [H1 H2]. pose proof (J2 s H1). destruct (Cn d s ltac:(lia) E) as [E0|[_ ->]]; [exact (J4 s H1 d E0)|]. apply H2; lia.
  - intros d e E Hd. destruct (Cn d _ Hd eq_refl) as [E0|[E0 E0']]; destruct (Cn e _ Hd (eq_sym E)) as [E1|[E1 E1']].
    + apply J5; lia.
    + exfalso. apply (J4 id (Pid ltac:(lia)) d). lia.
    + exfalso. apply (J4 id (Pid ltac:(lia)) e). lia.
    + congruence.
Qed.

(** Registers other than the lines, thresholds and enables unchanged. *)
Definition core_same (k k' : plic) : Prop :=
  p_ns k' = p_ns k /\ p_nc k' = p_nc k /\ p_ready k' = p_ready k /\ p_gpend k' = p_gpend k /\ p_prio k' = p_prio k /\
  p_pend k' = p_pend k /\ p_cc k' = p_cc k /\ p_if k' = p_if k.
Lemma core_refl k : core_same k k.
Proof. repeat split. Qed.
Lemma core_trans a b c : core_same a b -> core_same b c -> core_same a c.
Proof. unfold core_same. intuition congruence. Qed.
Lemma core_irq k k' : irq_only k k' -> core_same k k'.
Proof. unfold irq_only, core_same. intuition. Qed.
Lemma cinv_core k k' : core_same k k' -> cinv k -> cinv k'.
Proof.
  intros (A & _ & B & _ & P & Pe & C & _) I. apply (cinv_eq k); try assumption; [apply same_pend, Pe|]. rewrite P. apply I.
Qed.

Lemma threshold_effect k c v k' : write_threshold k c v = Some k' ->
  core_same k k' /\ p_en k' = p_en k /\ p_map k' = p_map k /\ p_thr k' = upd (p_thr k) c v.
Proof.
  unfold write_threshold. set (k1 := set_thr k _). assert (core_same k k1 /\ p_en k1 = p_en k /\ p_map k1 = p_map k /\ p_thr k1 = upd (p_thr k) c v) as S by (repeat split).
  intros E. assert (k' = k1 \/ k' = set_irq k1 c true) as [-> | ->].
  { destruct (_ <? _); [|left; congruence]. destruct (p_irq k1 c); [left; congruence|]. destruct (negb _); [left; congruence|].
    destruct (existsb _ _); [discriminate|]. destruct (existsb _ _); [right|left]; congruence. }
  - exact S.
  - exact S.
Qed.

Lemma enable_bit_effect k c s k' : enable_bit k c s = Some k' ->
  core_same k k' /\ p_en k' = p_en k /\ p_thr k' = p_thr k /\ p_map k' = p_map k ++ [(s, c)].
Proof.
  unfold enable_bit. set (k1 := set_map k _). intros E. assert (k' = k1 \/ k' = set_irq k1 c true) as [-> | ->].
  { destruct (negb _); [left; congruence|]. destruct (p_irq k1 c); [left; congruence|]. destruct (_ <=? _); [discriminate|]. destruct (_ <? _); [right|left]; congruence. }
  - repeat split.
  - repeat split.
Qed.
Lemma enable_set_fold bs c w l : forall k k', fold_left (fun ok bit => match ok with None => None | Some k =>
          if Z.testbit bs bit then enable_bit k c (w * 32 + bit) else Some k end) l (Some k) = Some k' ->
  core_same k k' /\ p_en k' = p_en k /\ p_thr k' = p_thr k /\
  p_map k' = p_map k ++ map (fun b => (w * 32 + b, c)) (filter (Z.testbit bs) l).
Proof.
  induction l as [|b l IH]; intros k k' E.
  - injection E as <-. split; [apply core_refl|]. cbn. rewrite app_nil_r. repeat split.
  - cbn [fold_left] in E. cbn [filter]. destruct (Z.testbit bs b) eqn:T.
    + destruct (enable_bit k c (w * 32 + b)) as [k1|] eqn:B.
      * destruct (enable_bit_effect _ _ _ _ B) as (C1 & E1 & T1 & M1). destruct (IH k1 k' E) as (C2 & E2 & T2 & M2).
        split; [eapply core_trans; eassumption|]. split; [congruence|]. split; [congruence|]. rewrite M2, M1. cbn [map]. rewrite <- app_assoc. reflexivity.
      * exfalso. clear -E. induction l as [|x l IH]; [discriminate|]. apply IH, E.
    + apply IH, E.
Qed.
Lemma erase_in s c l p : NoDup l -> In p (erase s c l) <-> In p l /\ p <> (s, c).
Proof.
  intros N. induction N as [|q l NI N IH]; [cbn; tauto|]. cbn [erase]. destruct q as [a b]. cbn [fst snd].
  destruct (Z.eqb_spec a s) as [->|Ha]; cbn [andb]; [destruct (Z.eqb_spec b c) as [->|Hb]|].
  - cbn [In]. split.
    + intros H. split; [right; exact H|]. intros ->. contradiction.
    + intros [[H|H] D]; [congruence|exact H].
  - cbn [In]. rewrite IH. split.
    + intros [<-|[H D]]; [split; [left; reflexivity|congruence]|split; [right; exact H|exact D]].
    + intros [[H|H] D]; [left; exact H|right; split; assumption].
  - cbn [In]. rewrite IH. split.
    + intros [<-|[H D]]; [split; [left; reflexivity|congruence]|split; [right; exact H|exact D]].
    + intros [[H|H] D]; [left; exact H|right; split; assumption].
Qed.
Lemma erase_nodup s c l : NoDup l -> NoDup (erase s c l).
Proof.
  intros N. induction N as [|q l NI N IH]; [constructor|]. cbn [erase]. destruct (_ && _); [exact N|]. constructor; [|exact IH].
  intros H. apply NI. apply (erase_in s c l q N). exact H.
Qed.
Lemma enable_clear_fold bc c w l : forall k, NoDup (p_map k) ->
  let k' := fold_left (fun k bit => if Z.testbit bc bit then set_map k (erase (w * 32 + bit) c (p_map k)) else k) l k in
  core_same k k' /\ p_en k' = p_en k /\ p_thr k' = p_thr k /\ NoDup (p_map k') /\
  (forall p, In p (p_map k') <-> In p (p_map k) /\ ~ exists b, In b l /\ Z.testbit bc b = true /\ p = (w * 32 + b, c)).
Proof.
  induction l as [|b l IH]; intros k N.
  - cbn [fold_left]. split; [apply core_refl|]. repeat split; auto; try tauto. intros (b & [] & _).
  - cbn [fold_left]. destruct (Z.testbit bc b) eqn:T.
    + specialize (IH (set_map k (erase (w * 32 + b) c (p_map k))) (erase_nodup _ _ _ N)). destruct IH as (C & E & Th & N' & I').
      split; [exact C|]. split; [exact E|]. split; [exact Th|]. split; [exact N'|]. intros p. rewrite I'. cbn [p_map set_map]. rewrite erase_in by exact N.
      split.
      * intros [[H D] X]. split; [exact H|]. intros (b' & [<-|Hb] & Tb & ->); [apply D; reflexivity|]. apply X. exists b'. auto.
      * intros [H X]. split; [split; [exact H|]|].
        -- intros ->. apply X. exists b. split; [left; reflexivity|]. auto.
        -- intros (b' & Hb & Tb & ->). apply X. exists b'. split; [right; exact Hb|]. auto.
    + destruct (IH k N) as (C & E & Th & N' & I'). split; [exact C|]. split; [exact E|]. split; [exact Th|]. split; [exact N'|]. intros p. rewrite I'. split.
      * intros [H X]. split; [exact H|]. intros (b' & [<-|Hb] & Tb & ->); [congruence|]. apply X. exists b'. auto.
      * intros [H X]. split; [exact H|]. intros (b' & Hb & Tb & ->). apply X. exists b'. split; [right; exact Hb|]. auto.
Qed.
Lemma some_eq {A} (a b : A) : Some a = Some b -> b = a.
Proof. congruence. Qed.
Lemma zrange_nodup n : NoDup (zrange n).
Proof.
  unfold zrange. generalize 0 as s. induction (Z.to_nat n) as [|m IH]; intros s; cbn [zrange_from]; constructor; [|apply IH].
  intros H. apply zrange_from_in in H. lia.
Qed.
Lemma minv_enable k off v k' : minv k -> inw 32 v -> write_enable k off v = Some k' -> core_same k k' /\ p_thr k' = p_thr k /\ minv k' /\
  (let o := (off - 0x2000) / 4 in let w := (o / 4) mod 32 in let c := o / 128 in
   (forall d x, p_en k' d x = if (d =? c) && (x =? w) then v else p_en k d x)).
Proof.
  intros [N M] Hv. unfold write_enable.
  assert (Z.shiftr (off - 8192) 2 = (off - 0x2000) / 4) as -> by (apply Z.shiftr_div_pow2; lia). set (o := (off - 0x2000) / 4).
  assert (Z.land (Z.shiftr o 2) 31 = (o / 4) mod 32) as ->.
  { change 31 with (Z.ones 5). rewrite Z.land_ones, Z.shiftr_div_pow2 by lia. reflexivity. }
  assert (Z.shiftr o 7 = o / 128) as -> by (apply Z.shiftr_div_pow2; lia). set (w := (o / 4) mod 32). set (c := o / 128).
  destruct (_ || _); [discriminate|]. set (prev := p_en k c w). set (bs := Z.land (Z.lxor v prev) v). set (bc := Z.land (Z.lxor v prev) (wnot 32 v)).
  set (k1 := set_en k _). destruct (fold_left _ (zrange 32) (Some k1)) as [k2|] eqn:F; [|discriminate]. intros E. apply some_eq in E. subst k'.
  destruct (enable_set_fold bs c w (zrange 32) k1 k2 F) as (C1 & E1 & T1 & M1).
  assert (forall b, 0 <= b < 32 -> (In (w * 32 + b, c) (p_map k) <-> Z.testbit prev b = true)) as Old.
  { intros b Hb. rewrite M. unfold enabled. rewrite Z.div_add_l, Z.div_small, Z.add_0_r, Z.add_comm, Z.mod_add, Z.mod_small by lia. fold prev. reflexivity. }
  assert (NoDup (p_map k2)) as N2.
  { rewrite M1. change (p_map k1) with (p_map k). assert (forall l, NoDup l -> (forall b, In b l -> 0 <= b < 32) -> forall m, NoDup m ->
      (forall b, In b l -> Z.testbit bs b = true -> ~ In (w * 32 + b, c) m) -> NoDup (m ++ map (fun b => (w * 32 + b, c)) (filter (Z.testbit bs) l))) as G.
    { intros l Nl Hl m Nm. revert m Nm. induction Nl as [|x l NI Nl IH]; intros m Nm D; [cbn; rewrite app_nil_r; exact Nm|]. cbn [filter]. destruct (Z.testbit bs x) eqn:Tx.
      - cbn [map]. change (m ++ (w * 32 + x, c) :: ?t) with (m ++ [(w * 32 + x, c)] ++ t). rewrite app_assoc. apply IH.
        + intros b Hb. apply Hl. right. exact Hb.
        + apply NoDup_rev in Nm. rewrite <- (rev_involutive (m ++ _)). apply NoDup_rev. rewrite rev_app_distr. cbn [rev app]. constructor; [|exact Nm].
          rewrite <- in_rev. apply D; [left; reflexivity|exact Tx].
        + intros b Hb Tb. rewrite in_app_iff. intros [H|[H|[]]]; [apply (D b); [right; exact Hb|exact Tb|exact H]|]. assert (b = x) by (injection H; lia). subst b. contradiction.
      - apply IH; [intros b Hb; apply Hl; right; exact Hb|exact Nm|]. intros b Hb. apply D. right. exact Hb. }
    apply G; [apply zrange_nodup|intros b; apply zrange_in|exact N|]. intros b Hb Tb H. apply zrange_in in Hb. apply (Old b Hb) in H.
    unfold bs in Tb. rewrite Z.land_spec, Z.lxor_spec, H in Tb. destruct (Z.testbit v b); discriminate. }
  destruct (enable_clear_fold bc c w (zrange 32) k2 N2) as (C3 & E3 & T3 & N3 & I3).
  assert (forall d x, p_en (fold_left (fun k bit => if Z.testbit bc bit then set_map k (erase (w * 32 + bit) c (p_map k)) else k) (zrange 32) k2) d x =
    (if (d =? c) && (x =? w) then v else p_en k d x)) as EN.
  { intros d x. rewrite E3, E1. cbn [k1 p_en set_en]. unfold upd. destruct (Z.eqb_spec d c) as [->|]; [|reflexivity]. destruct (x =? w); reflexivity. }
  split; [eapply core_trans; [exact C1|exact C3]|]. split; [rewrite T3, T1; reflexivity|]. split; [|exact EN].
  split; [exact N3|]. intros s d. rewrite I3, M1. change (p_map k1) with (p_map k). rewrite in_app_iff, in_map_iff. unfold enabled. rewrite EN.
  pose proof (Z.mod_pos_bound s 32 ltac:(lia)) as Bs. pose proof (Z.div_mod s 32 ltac:(lia)) as Ds.
  destruct (Z.eqb_spec d c) as [->|Dc]; cbn [andb]; [destruct (Z.eqb_spec (s / 32) w) as [Ew|Ew]|].
  - assert (s = w * 32 + s mod 32) as Es by lia. pose proof (Old (s mod 32) Bs) as Oo. rewrite <- Es in Oo. rewrite Oo.
    assert ((exists b, (w * 32 + b, c) = (s, c) /\ In b (filter (Z.testbit bs) (zrange 32))) <-> Z.testbit bs (s mod 32) = true) as ->.
    { split.
      - intros (b & H & Hb). apply filter_In in Hb as [Hb Tb]. assert (b = s mod 32) as <- by (injection H; lia). exact Tb.
      - intros H. exists (s mod 32). split; [f_equal; lia|]. apply filter_In. split; [apply zrange_in; exact Bs|exact H]. }
    assert ((exists b, In b (zrange 32) /\ Z.testbit bc b = true /\ (s, c) = (w * 32 + b, c)) <-> Z.testbit bc (s mod 32) = true) as ->.
    { split.
      - intros (b & Hb & Tb & H). assert (b = s mod 32) as <- by (injection H; lia). exact Tb.
      - intros H. exists (s mod 32). split; [apply zrange_in; exact Bs|]. split; [exact H|f_equal; lia]. }
    unfold bs, bc. rewrite !Z.land_spec, Z.lxor_spec, wnot_testbit by lia. destruct (Z.ltb_spec (s mod 32) 32); [|lia].
    destruct (Z.testbit v (s mod 32)), (Z.testbit prev (s mod 32)); cbn; intuition congruence.
  - rewrite M. unfold enabled. split.
    + intros [[H|(b & H & Hb)] _]; [exact H|]. exfalso. apply filter_In in Hb as [Hb _]. apply zrange_in in Hb. injection H as H. apply Ew. rewrite <- H. rewrite Z.div_add_l, Z.div_small by lia. lia.
    + intros H. split; [left; exact H|]. intros (b & Hb & _ & Q). apply zrange_in in Hb. injection Q as Q. apply Ew. rewrite Q, Z.div_add_l, Z.div_small by lia. lia.
  - rewrite M. unfold enabled. split.
    + intros [[H|(b & H & Hb)] _]; [exact H|]. congruence.
    + intros H. split; [left; exact H|]. intros (b & Hb & _ & Q). congruence.
Qed.
