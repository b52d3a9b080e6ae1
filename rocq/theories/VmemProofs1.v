(** Proofs about the vector loads: buffers, memory access, write back. *)
From Coq Require Import ZArith Bool List Lia.
From Verif Require Import Bits Memory VelemSpec VmaskSpec VpermSpec VmemSpec VcfgModel VelemModel VmemModel
  VelemProofs4 VmaskProofs1.
Import ListNotations.
Local Open Scope Z_scope.

Lemma written_in {A} n (f : Z -> option A) k : 0 <= k < n -> written 0 n f k = f k.
Proof. intros H. unfold written. destruct (Z.leb_spec 0 k), (Z.ltb_spec k n); try lia; reflexivity. Qed.
Lemma filled_ok {A} n (g : Z -> option A) : (forall k, 0 <= k < n -> exists x, g k = Some x) -> filled n g = true.
Proof.
  intros H. unfold filled. apply forallb_forall. intros k Hk. apply zrange_in in Hk. destruct (H k Hk) as (x & ->). reflexivity.
Qed.
Lemma fault_none maxpa n a : (forall k, 0 <= k < n -> getz a k <= maxpa) -> fault maxpa n a = None.
Proof.
  intros H. unfold fault. destruct (find _ _) as [k|] eqn:E; [|reflexivity].
  apply find_some in E. destruct E as (Hk & E). apply zrange_in in Hk. specialize (H k Hk).
  apply Z.ltb_lt in E. lia.
Qed.

(** Updates of elements of a register group. *)
Lemma upd_refl vb vd w f (rf : mem) P : (forall j, ~ P j) -> elem_update vb vd w P f rf rf.
Proof. intros H. split; [intros j Hj; destruct (H j Hj)|reflexivity]. Qed.
Lemma upd_one vb vd w j0 x rf : 0 <= w -> inw (8 * w) x ->
  elem_update vb vd w (fun j => j = j0) (fun _ => x) rf (store_le rf (vd * vb + j0 * w) (Z.to_nat w) x).
Proof.
  intros Hw Hx. split.
  - intros j ->. unfold elem. rewrite load_store_same. rewrite Z2Nat.id by lia. apply Z.mod_small. exact Hx.
  - intros a Ha. apply store_le_other. rewrite Z2Nat.id by lia. specialize (Ha j0 eq_refl). unfold in_elem in Ha. lia.
Qed.
Lemma upd_seq vb vd w P1 P2 f rf rf1 rf2 : 1 <= w -> elem_update vb vd w P1 f rf rf1 -> elem_update vb vd w P2 f rf1 rf2 ->
  (forall j, P1 j -> ~ P2 j) -> elem_update vb vd w (fun j => P1 j \/ P2 j) f rf rf2.
Proof.
  intros Hw (A1 & B1) (A2 & B2) D. split.
  - intros j [Hj|Hj]; [|apply A2; exact Hj]. rewrite <- (A1 j Hj). apply elem_ext; [lia|]. intros a Ha. apply B2.
    intros i Hi Hin. apply (D j Hj). assert (i = j) as <-; [|exact Hi]. unfold in_elem in *. nia.
  - intros a Ha. rewrite B2, B1; [reflexivity| |]; intros j Hj; apply Ha; [left|right]; exact Hj.
Qed.
Lemma upd_ext vb vd w P Q f g rf rf' : (forall j, P j <-> Q j) -> (forall j, P j -> f j = g j) ->
  elem_update vb vd w P f rf rf' -> elem_update vb vd w Q g rf rf'.
Proof.
  intros H E (A & B). split.
  - intros j Hj. apply H in Hj. rewrite <- E by exact Hj. apply A. exact Hj.
  - intros a Ha. apply B. intros j Hj. apply Ha. apply H. exact Hj.
Qed.
Lemma upd_shift vb vd w epv r P f rf rf' : vb = epv * w -> elem_update vb (vd + r) w P f rf rf' ->
  elem_update vb vd w (fun j => P (j - r * epv)) (fun j => f (j - r * epv)) rf rf'.
Proof.
  intros Hvb (A & B). split.
  - intros j Hj. rewrite <- (A _ Hj). unfold elem. f_equal. subst vb. ring.
  - intros a Ha. apply B. intros j Hj Hin. apply (Ha (j + r * epv)).
    + replace (j + r * epv - r * epv) with j by ring. exact Hj.
    + unfold in_elem in *. subst vb. nia.
Qed.

Lemma wb_items_ok vb w r nm mk v val fuel i ldi rf : 1 <= w -> (fuel = O \/ ldi + i + Z.of_nat fuel <= nm) ->
  (forall k, ldi + i <= k < ldi + i + Z.of_nat fuel -> getb mk k = true -> v k = Some (val k) /\ inw (8 * w) (val k)) ->
  exists rf', wb_items vb w r nm mk v fuel i ldi rf = Some rf' /\
    elem_update vb r w (fun j => i <= j < i + Z.of_nat fuel /\ getb mk (ldi + j) = true) (fun j => val (ldi + j)) rf rf'.
Proof.
  intros Hw. revert i rf. induction fuel as [|f IH]; intros i rf Hn Hv.
  - exists rf. split; [reflexivity|]. apply upd_refl. lia.
  - cbn [wb_items]. destruct (Z.leb_spec nm (ldi + i)); [lia|]. destruct (getb mk (ldi + i)) eqn:Em.
    + destruct (Hv (ldi + i) ltac:(lia) Em) as (-> & Hx). cbn [obind].
      destruct (IH (i + 1) (store_le rf (r * vb + i * w) (Z.to_nat w) (val (ldi + i)))) as (rf' & E & U); [lia|intros k Hk; apply Hv; lia|].
      exists rf'. split; [exact E|].
      assert (elem_update vb r w (fun j => j = i) (fun j => val (ldi + j)) rf (store_le rf (r * vb + i * w) (Z.to_nat w) (val (ldi + i)))) as U1.
      { eapply upd_ext; [| |apply (upd_one vb r w i (val (ldi + i)) rf); [lia|exact Hx]]; [reflexivity|]. intros j ->. reflexivity. }
      eapply upd_ext; [| |eapply upd_seq; [exact Hw|exact U1|exact U|]]; [|reflexivity|cbn beta; intros j Hj1 (Hj2 & _); lia].
      intros j. cbn beta. split; [intros [-> |Hx']; [split; [lia|exact Em]|split; [lia|apply Hx']]|].
      intros (Hx' & M). destruct (Z.eq_dec j i) as [->|]; [left; reflexivity|right; split; [lia|exact M]].
    + destruct (IH (i + 1) rf) as (rf' & E & U); [lia|intros k Hk; apply Hv; lia|].
      exists rf'. split; [exact E|]. eapply upd_ext; [| |exact U]; [|reflexivity].
      intros j. cbn beta. split; [intros (Hx & M); split; [lia|exact M]|].
      intros (Hx & M). destruct (Z.eq_dec j i) as [->|]; [congruence|split; [lia|exact M]].
Qed.

Lemma wb_regs_ok vb w vd epv max_regs nm mk v val fuel reg vc ldi rf : 1 <= w -> 1 <= epv -> vb = epv * w ->
  0 <= vc -> max_regs - reg <= Z.of_nat fuel -> vc <= (max_regs - reg) * epv -> ldi + vc <= nm ->
  (forall k, ldi <= k < ldi + vc -> getb mk k = true -> v k = Some (val k) /\ inw (8 * w) (val k)) ->
  exists rf', wb_regs vb w vd epv max_regs nm mk v fuel reg 0 vc ldi rf = Some rf' /\
    elem_update vb vd w (fun j => reg * epv <= j < reg * epv + vc /\ getb mk (ldi + (j - reg * epv)) = true)
      (fun j => val (ldi + (j - reg * epv))) rf rf'.
Proof.
  intros Hw He Hvb. revert reg vc ldi rf. induction fuel as [|f IH]; intros reg vc ldi rf Hvc Hf Hm Hn Hv.
  - exists rf. split; [reflexivity|]. apply upd_refl. nia.
  - cbn [wb_regs]. destruct (Z.ltb_spec reg max_regs), (Z.ltb_spec 0 vc); cbn [andb].
    2,4: exists rf; split; [reflexivity|]; apply upd_refl; lia.
    2: exists rf; split; [reflexivity|]; apply upd_refl; nia.
    cbv zeta. set (count := Z.min (epv - 0) vc).
    assert (0 < count <= epv /\ count <= vc /\ (count = epv \/ count = vc)) as Hc by (unfold count; lia). clearbody count.
    destruct (wb_items_ok vb w (vd + reg) nm mk v val (Z.to_nat (count - 0)) 0 ldi rf) as (rf1 & E1 & U1); try lia.
    { intros k Hk. apply Hv. lia. }
    rewrite E1. cbn [obind].
    destruct (IH (reg + 1) (vc - count) (ldi + count) rf1) as (rf2 & E2 & U2); try lia.
    { destruct Hc as (_ & _ & [-> | ->]); nia. }
    { intros k Hk. apply Hv. lia. }
    exists rf2. split; [exact E2|]. apply (upd_shift vb vd w epv reg) in U1; [|exact Hvb].
    assert (elem_update vb vd w (fun j => reg * epv + count <= j < reg * epv + vc /\ getb mk (ldi + (j - reg * epv)) = true)
      (fun j => val (ldi + (j - reg * epv))) rf1 rf2) as U2'.
    { destruct Hc as (Hc0 & Hc1 & Hc). destruct Hc as [-> | ->].
      - eapply upd_ext; [| |exact U2]; cbn beta; intros j; replace (ldi + epv + (j - (reg + 1) * epv)) with (ldi + (j - reg * epv)) by ring;
          [|reflexivity]. split; intros (H1 & H2); split; try exact H2; nia.
      - eapply upd_ext; [| |exact U2]; cbn beta; intros j; [split; intros (Hj1 & _); lia|intros (Hj1 & _); lia]. }
    eapply upd_ext; [| |eapply upd_seq; [exact Hw|exact U1|exact U2'|]]; cbn beta; [|reflexivity|intros j (Hj1 & _) (Hj2 & _); nia].
    intros j. destruct Hc as (Hc0 & Hc1 & _). split.
    + intros [(H1 & H2)|(H1 & H2)]; split; try exact H2; lia.
    + intros (H1 & H2). destruct (Z.ltb_spec j (reg * epv + count)); [left|right]; (split; [lia|exact H2]).
Qed.

(** WriteBackLoadData, exactly: which elements are written, and the buffer index each comes from. *)
Definition wb_src (epv start j : Z) : Z := if j / epv =? start / epv then j mod epv else j - start.
Definition wb_hit (epv start vl j : Z) : Prop :=
  start <= j < vl /\ (j / epv = start / epv -> j mod epv < Z.min (epv - start mod epv) (vl - start)).

Lemma wb_core vb w vd epv mr start vl sr item mk v val rf : 1 <= w -> 1 <= epv -> vb = epv * w ->
  start = sr * epv + item -> 0 <= item < epv -> 0 <= sr -> start < vl -> vl <= mr * epv ->
  (forall k, 0 <= k < vl - start -> getb mk k = true -> v k = Some (val k) /\ inw (8 * w) (val k)) ->
  let count := Z.min (epv - item) (vl - start) in
  let src j := if j <? (sr + 1) * epv then j - sr * epv else j - start in
  exists rf', wb_regs vb w vd epv mr (vl - start) mk v (Z.to_nat mr) sr item (vl - start) 0 rf = Some rf' /\
    elem_update vb vd w (fun j => (start <= j < sr * epv + count \/ (sr + 1) * epv <= j < vl) /\ getb mk (src j) = true)
      (fun j => val (src j)) rf rf'.
Proof.
  intros Hw He Hvb Hst Hit Hsr Hs Hmr HV count src.
  assert (sr < mr) by nia. assert (exists f, Z.to_nat mr = Datatypes.S f) as (f & Ef) by (exists (Z.to_nat (mr - 1)); lia).
  assert (mr - (sr + 1) <= Z.of_nat f) as Hf by lia.
  rewrite Ef. cbn [wb_regs]. destruct (Z.ltb_spec sr mr), (Z.ltb_spec 0 (vl - start)); try lia. cbn [andb]. cbv zeta.
  fold count. assert (0 < count <= vl - start /\ count <= epv - item) as Hc by (unfold count; lia).
  assert (count = epv - item \/ count = vl - start) as Hc2 by (unfold count; lia). clearbody count. clear Ef.
  destruct (wb_items_ok vb w (vd + sr) (vl - start) mk v val (Z.to_nat (count - item)) item 0 rf) as (rf1 & E1 & U1); [lia|lia| |].
  { intros k Hk. apply HV. lia. }
  rewrite E1. cbn [obind].
  destruct (wb_regs_ok vb w vd epv mr (vl - start) mk v val f (sr + 1) (vl - start - count) (0 + count) rf1) as (rf2 & E2 & U2); try lia.
  { clear - Hc2 Hst Hmr H He. destruct Hc2 as [-> | ->]; nia. }
  { intros k Hk. apply HV. lia. }
  rewrite E2. exists rf2. split; [reflexivity|]. clear E1 E2 HV Hmr Hf.
  apply (upd_shift vb vd w epv sr) in U1; [|exact Hvb]. cbn beta in U1.
  assert (forall j, j < (sr + 1) * epv -> src j = j - sr * epv) as Hs1.
  { intros j Hj. unfold src. destruct (Z.ltb_spec j ((sr + 1) * epv)); [reflexivity|lia]. }
  assert (forall j, (sr + 1) * epv <= j -> src j = j - start) as Hs2.
  { intros j Hj. unfold src. destruct (Z.ltb_spec j ((sr + 1) * epv)); [lia|reflexivity]. }
  clearbody src.
  assert (elem_update vb vd w (fun j => start <= j < sr * epv + count /\ getb mk (src j) = true) (fun j => val (src j)) rf rf1) as U1'.
  { eapply upd_ext; [| |exact U1]; cbn beta; intros j.
    - split; intros (K1 & K2).
      + split; [lia|]. rewrite Hs1 by lia. exact K2.
      + split; [lia|]. rewrite Hs1 in K2 by lia. exact K2.
    - intros (K1 & K2). rewrite Hs1 by lia. f_equal. }
  assert (elem_update vb vd w (fun j => (sr + 1) * epv <= j < vl /\ getb mk (src j) = true) (fun j => val (src j)) rf1 rf2) as U2'.
  { destruct Hc2 as [Hc2|Hc2].
    - eapply upd_ext; [| |exact U2]; cbn beta; intros j.
      + split; intros (K1 & K2).
        * split; [lia|]. rewrite Hs2 by lia. replace (j - start) with (0 + count + (j - (sr + 1) * epv)) by lia. exact K2.
        * split; [lia|]. rewrite Hs2 in K2 by lia. replace (0 + count + (j - (sr + 1) * epv)) with (j - start) by lia. exact K2.
      + intros (K1 & K2). rewrite Hs2 by lia. f_equal. lia.
    - eapply upd_ext; [| |exact U2]; cbn beta; intros j; [split; intros (Hj1 & _); lia|intros (Hj1 & _); lia]. }
  eapply upd_ext; [| |eapply upd_seq; [exact Hw|exact U1'|exact U2'|]]; cbn beta; [|reflexivity|intros j (Hj1 & _) (Hj2 & _); lia].
  intros j. split; intros K; [|destruct K as ([K|K] & K2); [left|right]; (split; [exact K|exact K2])].
  destruct K as [(K1 & K2)|(K1 & K2)]; (split; [|exact K2]); [left|right]; exact K1.
Qed.

Lemma write_back_ok vb w vd start vl mk v val rf : 1 <= w -> 1 <= vb / w -> vb = vb / w * w ->
  0 <= start <= vl -> vl <= num_regs vd * (vb / w) ->
  (forall k, 0 <= k < vl - start -> getb mk k = true -> v k = Some (val k) /\ inw (8 * w) (val k)) ->
  exists rf', write_back vb w vd start vl (vl - start) mk v rf = Some (Some rf') /\
    elem_update vb vd w (fun j => wb_hit (vb / w) start vl j /\ getb mk (wb_src (vb / w) start j) = true)
      (fun j => val (wb_src (vb / w) start j)) rf rf'.
Proof.
  intros Hw He Hvb Hs Hv HV. unfold write_back. cbv zeta. set (epv := vb / w) in *. clearbody epv.
  rewrite (Z.quot_div_nonneg (vl + epv - 1) epv), (Z.quot_div_nonneg start epv), (Z.rem_mod_nonneg start epv) by lia.
  set (mr := (vl + epv - 1) / epv).
  assert (vl <= mr * epv < vl + epv) as Hmr.
  { pose proof (Z.div_mod (vl + epv - 1) epv ltac:(lia)). pose proof (Z.mod_pos_bound (vl + epv - 1) epv ltac:(lia)). fold mr in H. nia. }
  clearbody mr. destruct (Z.ltb_spec (num_regs vd) mr); [nia|]. rewrite Z.eqb_refl. cbn [negb].
  assert (start = start / epv * epv + start mod epv /\ 0 <= start mod epv < epv /\ 0 <= start / epv) as (Hst & Hit & Hsr).
  { pose proof (Z.div_mod start epv ltac:(lia)). pose proof (Z.mod_pos_bound start epv ltac:(lia)).
    pose proof (Z.div_pos start epv). lia. }
  destruct (Z.eq_dec start vl) as [Ez|].
  - exists rf. rewrite Ez, Z.sub_diag. split; [|apply upd_refl; unfold wb_hit; intros j ((K & _) & _); lia].
    destruct (Z.to_nat mr); cbn [wb_regs obind]; [reflexivity|]. rewrite andb_false_r. reflexivity.
  - unfold wb_hit, wb_src. set (sr := start / epv) in *. set (item := start mod epv) in *. clearbody sr item.
    destruct (wb_core vb w vd epv mr start vl sr item mk v val rf) as (rf' & E & U); try assumption; [lia|lia|].
    rewrite E. exists rf'. split; [reflexivity|].
    set (count := Z.min (epv - item) (vl - start)) in *.
    assert (0 < count <= vl - start /\ count <= epv - item) as Hc by (unfold count; lia). clearbody count.
    assert (forall j, sr * epv <= j < (sr + 1) * epv -> j / epv = sr /\ j mod epv = j - sr * epv) as Hin.
    { intros j Hj. assert (j / epv = sr) as Ed by (symmetry; apply (Z.div_unique j epv sr (j - sr * epv)); lia).
      split; [exact Ed|]. rewrite Z.mod_eq, Ed by lia. ring. }
    assert (forall j, (sr + 1) * epv <= j -> j / epv =? sr = false) as Hout.
    { intros j Hj. apply Z.eqb_neq. pose proof (Z.div_le_lower_bound j epv (sr + 1)). lia. }
    assert (forall j, start <= j -> (if j / epv =? sr then j mod epv else j - start) = if j <? (sr + 1) * epv then j - sr * epv else j - start) as Hsrc.
    { intros j Hj. destruct (Z.ltb_spec j ((sr + 1) * epv)).
      - destruct (Hin j) as (-> & ->); [lia|]. rewrite Z.eqb_refl. reflexivity.
      - rewrite Hout by lia. reflexivity. }
    eapply upd_ext; [| |exact U]; cbn beta.
    + intros j. split.
      * intros (K & K2). rewrite Hsrc by lia. split; [|exact K2]. split; [lia|]. intros Ej.
        destruct K as [K|K]; [|rewrite <- Z.eqb_eq, Hout in Ej by lia; discriminate]. destruct (Hin j) as (_ & ->); lia.
      * intros ((K1 & K2) & K3). rewrite Hsrc in K3 by lia. split; [|exact K3].
        destruct (Z.ltb_spec j ((sr + 1) * epv)); [left|right; lia].
        destruct (Hin j) as (A & B); [lia|]. specialize (K2 A). rewrite B in K2. lia.
    + intros j (K & _). rewrite Hsrc by lia. reflexivity.
Qed.

(** When vstart is a multiple of the elements per register, this is element by element. *)
Lemma wb_aligned epv start vl j : 1 <= epv -> start mod epv = 0 -> 0 <= start ->
  (wb_hit epv start vl j <-> start <= j < vl) /\ (start <= j -> wb_src epv start j = j - start).
Proof.
  intros He Hm Hs. pose proof (Z.div_mod start epv ltac:(lia)) as D. rewrite Hm in D.
  pose proof (Z.mod_pos_bound j epv ltac:(lia)) as B. pose proof (Z.div_mod j epv ltac:(lia)) as Dj.
  split.
  - unfold wb_hit. split; [lia|]. intros H. split; [exact H|]. intros E. rewrite E in Dj. lia.
  - intros H. unfold wb_src. destruct (Z.eqb_spec (j / epv) (start / epv)) as [E|]; [|reflexivity]. rewrite E in Dj. lia.
Qed.
