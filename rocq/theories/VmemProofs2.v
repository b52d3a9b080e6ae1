(** Proofs about the vector loads: segment write back, and whole instructions. *)
From Coq Require Import ZArith Bool List Lia.
From Verif Require Import Bits Memory VelemSpec VmaskSpec VpermSpec VmemSpec VcfgModel VelemModel VmemModel
  VelemProofs4 VmaskProofs1 VpermProofs VmemProofs1.
Import ListNotations.
Local Open Scope Z_scope.

Lemma ws_items_ok vb w r nm mk v val fuel i ldi rf : 1 <= w -> ldi + Z.of_nat fuel <= nm ->
  (forall k, ldi <= k < ldi + Z.of_nat fuel -> getb mk k = true -> v k = Some (val k) /\ inw (8 * w) (val k)) ->
  exists rf', ws_items vb w r nm mk v fuel i ldi rf = Some (rf', ldi + Z.of_nat fuel) /\
    elem_update vb r w (fun j => i <= j < i + Z.of_nat fuel /\ getb mk (ldi + (j - i)) = true) (fun j => val (ldi + (j - i))) rf rf'.
Proof.
  intros Hw. revert i ldi rf. induction fuel as [|f IH]; intros i ldi rf Hn Hv.
  - exists rf. split; [cbn [ws_items]; do 2 f_equal; lia|]. apply upd_refl. intros j (K & _). lia.
  - cbn [ws_items]. destruct (Z.leb_spec nm ldi); [lia|].
    replace (ldi + Z.of_nat (Datatypes.S f)) with (ldi + 1 + Z.of_nat f) by lia.
    destruct (getb mk ldi) eqn:Em.
    + destruct (Hv ldi ltac:(lia) Em) as (-> & Hx). cbn [obind].
      destruct (IH (i + 1) (ldi + 1) (store_le rf (r * vb + i * w) (Z.to_nat w) (val ldi))) as (rf' & E & U); [lia|intros k Hk; apply Hv; lia|].
      exists rf'. split; [exact E|].
      assert (elem_update vb r w (fun j => j = i) (fun j => val (ldi + (j - i))) rf (store_le rf (r * vb + i * w) (Z.to_nat w) (val ldi))) as U1.
      { eapply upd_ext; [| |apply (upd_one vb r w i (val ldi) rf); [lia|exact Hx]]; [reflexivity|]. intros j ->. f_equal. lia. }
      eapply upd_ext with (Q := fun j => i + 1 <= j < i + 1 + Z.of_nat f /\ getb mk (ldi + (j - i)) = true) (g := fun j => val (ldi + (j - i))) in U.
      3: intros j _; cbn beta; f_equal; lia.
      2: { intros j. replace (ldi + 1 + (j - (i + 1))) with (ldi + (j - i)) by lia. reflexivity. }
      eapply upd_ext; [| |eapply upd_seq; [exact Hw|exact U1|exact U|]]; [|reflexivity|cbn beta; intros j Hj1 (Hj2 & _); lia].
      intros j. cbn beta. split.
      * intros [-> |(K & M)]; (split; [lia|]); [|exact M]. replace (ldi + (i - i)) with ldi by lia. exact Em.
      * intros (K & M). destruct (Z.eq_dec j i) as [->|]; [left; reflexivity|right; split; [lia|exact M]].
    + destruct (IH (i + 1) (ldi + 1) rf) as (rf' & E & U); [lia|intros k Hk; apply Hv; lia|].
      exists rf'. split; [exact E|]. eapply upd_ext; [| |exact U]; [|intros j _; cbn beta; f_equal; lia].
      intros j. cbn beta. replace (ldi + 1 + (j - (i + 1))) with (ldi + (j - i)) by lia.
      split; intros (K & M); (split; [|exact M]); [lia|].
      destruct (Z.eq_dec j i) as [->|]; [|lia]. replace (ldi + (i - i)) with ldi in M by lia. congruence.
Qed.

Lemma ws_regs_ok vb w vd epv mepv nm mk v val fuel reg ldi rf : 1 <= w -> vb = epv * w -> 1 <= mepv <= epv ->
  (fuel <= 1)%nat \/ mepv = epv -> reg + Z.of_nat fuel <= num_regs vd -> ldi + Z.of_nat fuel * mepv <= nm ->
  (forall k, ldi <= k < ldi + Z.of_nat fuel * mepv -> getb mk k = true -> v k = Some (val k) /\ inw (8 * w) (val k)) ->
  exists rf', ws_regs vb w vd mepv nm mk v fuel reg 0 (Z.of_nat fuel * mepv) ldi rf = Some (rf', ldi + Z.of_nat fuel * mepv) /\
    elem_update vb vd w (fun j => reg * epv <= j < reg * epv + Z.of_nat fuel * mepv /\ getb mk (ldi + (j - reg * epv)) = true)
      (fun j => val (ldi + (j - reg * epv))) rf rf'.
Proof.
  intros Hw Hvb Hm. revert reg ldi rf. induction fuel as [|f IH]; intros reg ldi rf Hf Hr Hn Hv.
  - exists rf. split; [cbn [ws_regs]; do 2 f_equal; lia|]. apply upd_refl. intros j (K & _). lia.
  - cbn [ws_regs]. destruct (Z.leb_spec (num_regs vd) reg); [lia|]. cbv zeta.
    assert (Z.of_nat (Datatypes.S f) * mepv = Z.of_nat f * mepv + mepv) as Es by lia.
    rewrite Es in *. assert (0 <= Z.of_nat f * mepv) by (clear - Hm; nia).
    replace (Z.min (Z.of_nat f * mepv + mepv + 0) mepv - 0) with mepv by (rewrite Z.min_r by lia; lia).
    destruct (ws_items_ok vb w (vd + reg) nm mk v val (Z.to_nat mepv) 0 ldi rf) as (rf1 & E1 & U1); [lia|lia|intros k Hk; apply Hv; lia|].
    rewrite E1. cbn [obind]. rewrite Z2Nat.id in * by lia.
    replace (Z.of_nat f * mepv + mepv - (ldi + mepv - ldi)) with (Z.of_nat f * mepv) by lia.
    destruct (IH (reg + 1) (ldi + mepv) rf1) as (rf2 & E2 & U2); try lia.
    { intros k Hk. apply Hv. lia. }
    exists rf2. split; [rewrite E2; do 2 f_equal; lia|].
    apply (upd_shift vb vd w epv reg) in U1; [|exact Hvb].
    eapply upd_ext with (Q := fun j => reg * epv <= j < reg * epv + mepv /\ getb mk (ldi + (j - reg * epv)) = true)
      (g := fun j => val (ldi + (j - reg * epv))) in U1.
    3: intros j _; cbn beta; f_equal; lia.
    2: { intros j. cbn beta. replace (ldi + (j - reg * epv - 0)) with (ldi + (j - reg * epv)) by lia. split; intros (K1 & K2); (split; [lia|exact K2]). }
    assert (elem_update vb vd w (fun j => reg * epv + mepv <= j < reg * epv + (Z.of_nat f * mepv + mepv) /\ getb mk (ldi + (j - reg * epv)) = true)
      (fun j => val (ldi + (j - reg * epv))) rf1 rf2) as U2'.
    { destruct f as [|f'].
      - eapply upd_ext; [| |exact U2]; cbn beta; intros j; [split; intros (K & _); lia|intros (K & _); lia].
      - destruct Hf as [Hf|Hf]; [lia|]. subst mepv.
        eapply upd_ext; [| |exact U2]; cbn beta; intros j; replace (ldi + epv + (j - (reg + 1) * epv)) with (ldi + (j - reg * epv)) by ring;
          [|reflexivity]. split; intros (K1 & K2); (split; [lia|exact K2]). }
    eapply upd_ext; [| |eapply upd_seq; [exact Hw|exact U1|exact U2'|]]; cbn beta.
    + intros j. split.
      * intros [(K1 & K2)|(K1 & K2)]; (split; [lia|exact K2]).
      * intros (K1 & K2). destruct (Z.ltb_spec j (reg * epv + mepv)); [left|right]; (split; [lia|exact K2]).
    + reflexivity.
    + intros j (Hj1 & _) (Hj2 & _); lia.
Qed.

Lemma ws_fields_ok vb w vd epv mepv g nseg nm mk v val fuel field rf : 1 <= w -> vb = epv * w -> 1 <= mepv <= epv -> 1 <= g ->
  g = 1 \/ mepv = epv -> nseg = g * mepv -> 0 <= field -> (field + Z.of_nat fuel) * g <= num_regs vd -> (field + Z.of_nat fuel) * nseg <= nm ->
  (forall k, 0 <= k < (field + Z.of_nat fuel) * nseg -> getb mk k = true -> v k = Some (val k) /\ inw (8 * w) (val k)) ->
  exists rf', ws_fields vb w vd mepv g nseg 0 nm mk v fuel field (field * nseg) rf = Some rf' /\
    elem_update vb vd w (fun j => exists f i, field <= f < field + Z.of_nat fuel /\ 0 <= i < nseg /\ j = f * (g * epv) + i /\ getb mk (f * nseg + i) = true)
      (fun j => val (j / (g * epv) * nseg + j mod (g * epv))) rf rf'.
Proof.
  intros Hw Hvb Hm Hg Hgm Hns. assert (nseg <= g * epv) as HK by nia.
  assert (forall f i, 0 <= i < nseg -> (f * (g * epv) + i) / (g * epv) = f /\ (f * (g * epv) + i) mod (g * epv) = i) as HD.
  { intros f i Hi. rewrite Z.add_comm, Z.div_add, Z.mod_add by nia. rewrite Z.div_small, Z.mod_small by lia. lia. }
  revert field rf. induction fuel as [|n IH]; intros field rf Hf Hr Hn Hv.
  - exists rf. split; [reflexivity|]. apply upd_refl. intros j (f & i & K & _). lia.
  - cbn [ws_fields]. rewrite Z.div_0_l, Z.mod_0_l, Z.add_0_r by lia.
    destruct (ws_regs_ok vb w vd epv mepv nm mk v val (Z.to_nat g) (field * g) (field * nseg) rf) as (rf1 & E1 & U1); try assumption; rewrite ?Z2Nat.id by lia.
    { destruct Hgm as [-> | ->]; [left; reflexivity|right; reflexivity]. }
    { clear - Hr Hg. nia. }
    { clear - Hn Hns Hg Hm. nia. }
    { intros k Hk. apply Hv. clear - Hk Hns Hg Hm Hf. nia. }
    rewrite Z2Nat.id in E1, U1 by lia. rewrite <- Hns in E1, U1. rewrite E1. cbn [obind].
    assert (field + 1 + Z.of_nat n = field + Z.of_nat (Datatypes.S n)) as Hsn by lia.
    destruct (IH (field + 1) rf1) as (rf2 & E2 & U2); [lia|rewrite Hsn; exact Hr|rewrite Hsn; exact Hn|rewrite Hsn; exact Hv|].
    exists rf2. split; [rewrite <- E2; f_equal; lia|].
    assert (elem_update vb vd w (fun j => exists i, 0 <= i < nseg /\ j = field * (g * epv) + i /\ getb mk (field * nseg + i) = true)
      (fun j => val (j / (g * epv) * nseg + j mod (g * epv))) rf rf1) as U1'.
    { replace (field * g * epv) with (field * (g * epv)) in U1 by ring. eapply upd_ext; [| |exact U1]; cbn beta; intros j.
      - split.
        + intros (K1 & K2). exists (j - field * (g * epv)). split; [lia|]. split; [lia|]. exact K2.
        + intros (i & K1 & -> & K2). split; [lia|]. replace (field * (g * epv) + i - field * (g * epv)) with i by lia. exact K2.
      - intros (K1 & K2). destruct (HD field (j - field * (g * epv)) ltac:(lia)) as (A & B).
        replace (field * (g * epv) + (j - field * (g * epv))) with j in A, B by lia. rewrite A, B. reflexivity. }
    eapply upd_ext; [| |eapply upd_seq; [exact Hw|exact U1'|exact U2|]]; cbn beta.
    + intros j. split.
      * intros [(i & K1 & K2)|(f & i & K1 & K2)]; [exists field, i|exists f, i]; (split; [lia|]); [split; assumption|exact K2].
      * intros (f & i & K1 & K2). destruct (Z.eq_dec f field) as [->|]; [left; exists i; exact K2|right; exists f, i; split; [lia|exact K2]].
    + reflexivity.
    + intros j (i & K1 & -> & _) (f & i' & K2 & K3 & K4 & _). clear - K1 K2 K3 K4 HK. nia.
Qed.

Lemma write_back_segment_ok vb w vd nf nseg g mk v val rf : In w [1; 2; 4; 8] -> 1 <= vb / w -> vb = vb / w * w -> 1 <= nf -> 1 <= nseg ->
  1 <= g -> (g = 1 /\ nseg <= vb / w) \/ nseg = g * (vb / w) -> nf * g <= num_regs vd ->
  (forall k, 0 <= k < nf * nseg -> getb mk k = true -> v k = Some (val k) /\ inw (8 * w) (val k)) ->
  exists rf', write_back_segment vb w vd nf 0 nseg (nf * nseg) mk v rf = Some (Some rf') /\
    (forall i f, 0 <= f < nf -> 0 <= i < nseg -> getb mk (f * nseg + i) = true -> elem vb rf' (vd + f * g) w i = val (f * nseg + i)) /\
    (forall b, (forall i f, 0 <= f < nf -> 0 <= i < nseg -> getb mk (f * nseg + i) = true -> ~ in_elem vb (vd + f * g) w i b) -> rf' b = rf b).
Proof.
  intros Hw He Hvb Hnf Hns Hg HG Hr Hv.
  assert (1 <= w) as Hw1 by (clear - Hw; destruct Hw as [<-|[<-|[<-|[<-|[]]]]]; lia).
  unfold write_back_segment. rewrite (Z.quot_div_nonneg vb w) by (clear - Hw1 He Hvb; nia).
  set (epv := vb / w) in *. clearbody epv. assert (Z.quot (nf * nseg) nf = nseg) as -> by (rewrite Z.mul_comm; apply Z.quot_mul; lia). cbv zeta.
  assert (Z.max 1 (Z.quot (nseg * w) vb) = g) as ->.
  { destruct HG as [(-> & HG)| ->].
    - destruct (Z.eq_dec nseg epv) as [->|].
      + rewrite <- Hvb, Z.quot_same by nia. reflexivity.
      + rewrite Z.quot_small by nia. reflexivity.
    - replace (g * epv * w) with (g * vb) by (rewrite Hvb; ring). rewrite Z.quot_mul by nia. lia. }
  destruct (Z.ltb_spec (num_regs vd) (nf * g)); [lia|]. rewrite Z.sub_0_r, Z.eqb_refl. cbn [negb].
  set (mepv := Z.min epv nseg).
  assert (1 <= mepv <= epv /\ (g = 1 \/ mepv = epv) /\ nseg = g * mepv) as (Hm1 & Hm2 & Hm3).
  { unfold mepv. destruct HG as [(-> & HG)| HG]; [lia|]. assert (epv <= nseg) by nia. rewrite Z.min_l by lia. lia. }
  clearbody mepv. destruct (Z.eqb_spec mepv 0); [lia|].
  destruct (ws_fields_ok vb w vd epv mepv g nseg (nf * nseg) mk v val (Z.to_nat nf) 0 rf) as (rf' & E & U); try assumption;
    rewrite ?Z2Nat.id, ?Z.add_0_l by lia; try assumption; try lia.
  change (0 * nseg) with 0 in E. rewrite E. cbn [obind]. exists rf'. split; [reflexivity|]. rewrite Z2Nat.id in U by lia.
  assert (nseg <= g * epv) as HK by nia. destruct U as (U1 & U2).
  assert (forall f i, vb * (f * g) + i * w = (f * (g * epv) + i) * w) as HE by (intros f i; rewrite Hvb; ring).
  split.
  - intros i f Hf Hi Hmk. specialize (U1 (f * (g * epv) + i)). cbn beta in U1.
    rewrite (Z.add_comm (f * (g * epv)) i), Z.div_add, Z.mod_add, Z.div_small, Z.mod_small in U1 by (clear - Hi HK Hg He; nia).
    change (0 + f) with f in U1. rewrite <- U1.
    + unfold elem. f_equal. specialize (HE f i). lia.
    + exists f, i. split; [lia|]. split; [lia|]. split; [lia|exact Hmk].
  - intros b Hb. apply U2. intros j (f & i & Hf & Hi & -> & Hmk) Hin. apply (Hb i f ltac:(lia) Hi Hmk).
    unfold in_elem in *. pose proof (HE f i). pose proof (HE f (i + 1)). lia.
Qed.
