(** Branch traces and debugger memory access (C53, C54). *)
From Coq Require Import ZArith Bool List Lia.
From Verif Require Import Bits Memory DbgSpec DbgModel.
From Verif Require IntModel.
Import ListNotations.
Local Open Scope Z_scope.

(** ** Powers of two *)
Lemma pop_loop_nonneg n : forall a, 0 <= IntModel.pop_loop n a.
Proof.
  induction n as [|n IH]; intros a; cbn [IntModel.pop_loop]; [lia|]. specialize (IH (Z.shiftr a 1)).
  assert (0 <= Z.land a 1) by (apply Z.land_nonneg; lia). lia.
Qed.
Lemma land1 a : Z.land a 1 = a mod 2.
Proof. change 1 with (Z.ones 1). apply Z.land_ones. lia. Qed.
Lemma pop_zero n : forall a, 0 <= a < 2 ^ Z.of_nat n -> (IntModel.pop_loop n a = 0 <-> a = 0).
Proof.
  induction n as [|n IH]; intros a H; cbn [IntModel.pop_loop].
  - change (2 ^ Z.of_nat 0) with 1 in H. lia.
  - rewrite Nat2Z.inj_succ, Z.pow_succ_r in H by lia. rewrite land1, Z.shiftr_div_pow2 by lia. change (2 ^ 1) with 2.
    pose proof (pop_loop_nonneg n (a / 2)). pose proof (Z.mod_pos_bound a 2 ltac:(lia)). pose proof (Z.div_mod a 2 ltac:(lia)).
    specialize (IH (a / 2) ltac:(split; [apply Z.div_pos; lia|apply Z.div_lt_upper_bound; lia])).
    split; intros E; [|subst a; change (0 / 2) with 0 in *; change (0 mod 2) with 0; destruct IH as [_ ->]; lia].
    assert (a / 2 = 0) by (apply IH; lia). lia.
Qed.
Lemma pop_one n : forall a, 0 <= a < 2 ^ Z.of_nat n -> (IntModel.pop_loop n a = 1 <-> exists k, 0 <= k /\ a = 2 ^ k).
Proof.
  induction n as [|n IH]; intros a H; cbn [IntModel.pop_loop].
  - change (2 ^ Z.of_nat 0) with 1 in H. split; [lia|]. intros (k & Hk & ->). pose proof (Z.pow_pos_nonneg 2 k ltac:(lia) Hk). lia.
  - rewrite Nat2Z.inj_succ, Z.pow_succ_r in H by lia. rewrite land1, Z.shiftr_div_pow2 by lia. change (2 ^ 1) with 2.
    pose proof (Z.mod_pos_bound a 2 ltac:(lia)) as M2. pose proof (Z.div_mod a 2 ltac:(lia)) as DM.
    assert (0 <= a / 2 < 2 ^ Z.of_nat n) as R by (split; [apply Z.div_pos; lia|apply Z.div_lt_upper_bound; lia]).
    destruct (Z.eq_dec (a mod 2) 0) as [E|E].
    + rewrite E, Z.add_0_l. rewrite (IH _ R). split; intros (k & Hk & Ek).
      * exists (k + 1). split; [lia|]. rewrite Z.pow_add_r by lia. lia.
      * destruct (Z.eq_dec k 0) as [->|]; [subst a; change (2 ^ 0 mod 2) with 1 in E; lia|].
        exists (k - 1). split; [lia|]. rewrite Z.pow_sub_r by lia. rewrite <- Ek. reflexivity.
    + assert (a mod 2 = 1) as E1 by lia. rewrite E1. split.
      * intros E2. exists 0. split; [lia|]. assert (a / 2 = 0) by (apply (pop_zero n _ R); lia). change (2 ^ 0) with 1. lia.
      * intros (k & Hk & Ek). destruct (Z.eq_dec k 0) as [->|].
        -- assert (a / 2 = 0) as -> by (rewrite Ek; reflexivity). rewrite (proj2 (pop_zero n 0 ltac:(lia)) eq_refl). reflexivity.
        -- exfalso. replace k with (1 + (k - 1)) in Ek by lia. rewrite Z.pow_add_r in Ek by lia. change (2 ^ 1) with 2 in Ek. lia.
Qed.
Lemma popcount_pow2 n : 0 <= n < 2 ^ 64 -> (IntModel.popcount 64 n =? 1) = pow2 n.
Proof.
  intros H. unfold pow2, IntModel.popcount. apply eq_true_iff_eq. rewrite Z.eqb_eq, andb_true_iff, Z.ltb_lt, Z.eqb_eq.
  rewrite pop_one by (rewrite Z2Nat.id; lia). split.
  - intros (k & Hk & ->). rewrite Z.log2_pow2 by lia. split; [apply Z.pow_pos_nonneg; lia|reflexivity].
  - intros [Hp E]. exists (Z.log2 n). split; [apply Z.log2_nonneg|symmetry; exact E].
Qed.
Lemma pow2_spec n : pow2 n = true <-> exists k, 0 <= k /\ n = 2 ^ k.
Proof.
  unfold pow2. rewrite andb_true_iff, Z.ltb_lt, Z.eqb_eq. split.
  - intros [Hp E]. exists (Z.log2 n). split; [apply Z.log2_nonneg|symmetry; exact E].
  - intros (k & Hk & ->). rewrite Z.log2_pow2 by lia. split; [apply Z.pow_pos_nonneg; lia|reflexivity].
Qed.
Lemma land_mask a n : pow2 n = true -> Z.land a (n - 1) = a mod n.
Proof. intros H. apply pow2_spec in H as (k & Hk & ->). rewrite <- Z.land_ones, Z.ones_equiv by lia. reflexivity. Qed.

(** ** The ring *)
Definition slot (b : btrace) (i : Z) : Z * Z * Z := b_ent b ((b_head b - i) mod b_size b).
Record ring (L : list (Z * Z * Z)) (b : btrace) : Prop := {
  rg_size : pow2 (b_size b) = true;
  rg_head : 0 <= b_head b < b_size b;
  rg_len : Z.of_nat (length L) <= b_size b;
  rg_in : forall i, 0 <= i < Z.of_nat (length L) -> slot b i = nth (Z.to_nat i) L (0, 0, 0);
  rg_out : forall i, Z.of_nat (length L) <= i < b_size b -> slot b i = (0, 0, 0) }.
(** Addresses and counts fit their fields. *)
Definition fits (n : Z) (L : list (Z * Z * Z)) : Prop := forall f t c, In (f, t, c) L -> 0 <= f < 2 ^ 32 /\ 0 <= t < 2 ^ 32 /\ 1 <= c <= n.

Lemma ring_pos L b : ring L b -> 0 < b_size b.
Proof. intros R. pose proof (rg_head _ _ R). lia. Qed.
Lemma mod_inj n a b : 0 < n -> - n < a - b < n -> a mod n = b mod n -> a = b.
Proof.
  intros Hn R E. pose proof (Z.div_mod a n ltac:(lia)) as Ea. pose proof (Z.div_mod b n ltac:(lia)) as Eb. rewrite E in Ea.
  assert (n * (a / n) - n * (b / n) = a - b) as D by lia. rewrite <- Z.mul_sub_distr_l in D.
  assert (a / n - b / n = 0) as Q by nia. lia.
Qed.

Lemma bt_read_ok L b : ring L b -> (forall f t c, In (f, t, c) L -> c <> 0) ->
  forall k i, Z.of_nat k + i = b_size b -> 0 <= i -> bt_read b k ((b_head b - i) mod b_size b) = skipn (Z.to_nat i) L.
Proof.
  intros R NZ. pose proof (ring_pos _ _ R) as Sp. induction k as [|k IH]; intros i Ek Hi; cbn [bt_read].
  - rewrite skipn_all2; [reflexivity|]. pose proof (rg_len _ _ R). lia.
  - fold (slot b i). destruct (Z_lt_dec i (Z.of_nat (length L))) as [Hl|Hl].
    + rewrite (rg_in _ _ R i) by lia.
      assert (exists e, nth (Z.to_nat i) L (0, 0, 0) = e /\ In e L /\ skipn (Z.to_nat i) L = e :: skipn (Z.to_nat (i + 1)) L) as (e & -> & He & ->).
      { exists (nth (Z.to_nat i) L (0, 0, 0)). split; [reflexivity|]. split; [apply nth_In; lia|].
        replace (Z.to_nat (i + 1)) with (S (Z.to_nat i)) by lia. assert (Z.to_nat i < length L)%nat as Hn by lia.
        generalize (Z.to_nat i), Hn. clear. intros n. revert L. induction n as [|n IH]; intros [|x L] H; cbn in *; try lia; [reflexivity|].
        apply IH. lia. }
      destruct e as [[f t] c]. cbn [snd]. destruct (Z.eqb_spec c 0) as [E|E]; [destruct (NZ f t c He E)|]. f_equal.
      rewrite <- (IH (i + 1)) by lia. f_equal.
      pose proof (Z.mod_pos_bound (b_head b - i) (b_size b) ltac:(lia)) as MB.
      destruct (Z.eqb_spec ((b_head b - i) mod b_size b) 0) as [Ez|Ez].
      * replace (b_head b - (i + 1)) with (b_head b - i - 1) by lia.
        apply (Z.mod_unique _ _ ((b_head b - i) / b_size b - 1)); [lia|]. pose proof (Z.div_mod (b_head b - i) (b_size b) ltac:(lia)). lia.
      * replace (b_head b - (i + 1)) with (b_head b - i - 1) by lia. 
        apply (Z.mod_unique _ _ ((b_head b - i) / b_size b)); [lia|]. pose proof (Z.div_mod (b_head b - i) (b_size b) ltac:(lia)). lia.
    + rewrite (rg_out _ _ R i) by lia. cbn [snd]. rewrite skipn_all2 by lia. reflexivity.
Qed.
Lemma bt_list_ok L b : ring L b -> (forall f t c, In (f, t, c) L -> c <> 0) -> bt_list b = L.
Proof.
  intros R NZ. unfold bt_list. pose proof (rg_head _ _ R) as H.
  pose proof (bt_read_ok L b R NZ (Z.to_nat (b_size b)) 0 ltac:(lia) ltac:(lia)) as K. rewrite Z.sub_0_r, Z.mod_small in K by lia. exact K.
Qed.

Lemma ring_add n L b f t : ring L b -> fits n L -> n + 1 < 2 ^ 32 -> 0 <= f < 2 ^ 32 -> 0 <= t < 2 ^ 32 ->
  ring (firstn (Z.to_nat (b_size b)) (rle_add f t L)) (bt_add b f t) /\ b_size (bt_add b f t) = b_size b.
Proof.
  intros R F Hn Hf Ht. pose proof (ring_pos _ _ R) as Sp. pose proof (rg_head _ _ R) as Hd. pose proof (rg_len _ _ R) as Hl.
  assert (forall i, 0 <= i < b_size b -> ((b_head b - i) mod b_size b = b_head b <-> i = 0)) as HI.
  { intros i Hi. split; intros E.
    - apply (mod_inj (b_size b) i 0 ltac:(lia) ltac:(lia)). rewrite Z.mod_0_l by lia. replace i with (b_head b - (b_head b - i)) by lia.
      rewrite Zminus_mod, E, Zminus_mod_idemp_l, Z.sub_diag. apply Z.mod_0_l; lia.
    - subst i. rewrite Z.sub_0_r, Z.mod_small; lia. }
  assert (slot b 0 = b_ent b (b_head b)) as S0 by (unfold slot; rewrite Z.sub_0_r, Z.mod_small by lia; reflexivity).
  (* advancing *)
  assert (forall c0 f0 t0, b_ent b (b_head b) = (f0, t0, c0) -> (f =? f0) && (t =? t0) = false ->
     ring (firstn (Z.to_nat (b_size b)) ((f, t, 1) :: L)) (bt_add b f t)) as ADV.
  { intros c0 f0 t0 E N. unfold bt_add. rewrite E, N. rewrite (land_mask _ _ (rg_size _ _ R)).
    pose proof (Z.mod_pos_bound (b_head b + 1) (b_size b) ltac:(lia)) as MB.
    rewrite (wrap_id 32 f), (wrap_id 32 t) by (unfold inw; lia).
    assert (forall i, ((b_head b + 1) mod b_size b - i) mod b_size b = (b_head b + 1 - i) mod b_size b) as MI by (intros; apply Zminus_mod_idemp_l).
    assert (forall i, 0 <= i < b_size b -> ((b_head b + 1 - i) mod b_size b = (b_head b + 1) mod b_size b <-> i = 0)) as HJ.
    { intros i Hi. split; intros Ei.
      - apply (mod_inj (b_size b) (b_head b + 1 - i) (b_head b + 1)) in Ei; lia.
      - subst i. f_equal; lia. }
    split; cbn [b_size b_head b_ent].
    - apply (rg_size _ _ R).
    - exact MB.
    - pose proof (firstn_le_length (Z.to_nat (b_size b)) ((f, t, 1) :: L)). lia.
    - intros i Hi. rewrite firstn_length in Hi. cbn [length] in Hi. unfold slot. cbn [b_size b_head b_ent]. rewrite MI.
      destruct (Z.eqb_spec ((b_head b + 1 - i) mod b_size b) ((b_head b + 1) mod b_size b)) as [Ei|Ei].
      + apply HJ in Ei; [|lia]. subst i. destruct (Z.to_nat (b_size b)) eqn:Es; [lia|]. reflexivity.
      + assert (i <> 0) by (intros ->; apply Ei, HJ; lia).
        replace (b_head b + 1 - i) with (b_head b - (i - 1)) by lia. fold (slot b (i - 1)). rewrite (rg_in _ _ R) by lia.
        assert (forall (l : list (Z * Z * Z)) n k d, (k < n)%nat -> nth k (firstn n l) d = nth k l d) as NF.
        { clear. induction l as [|x l IH]; intros [|n] [|k] d Hk; cbn; try lia; try reflexivity. apply IH; lia. }
        rewrite NF by lia. replace (Z.to_nat i) with (S (Z.to_nat (i - 1))) by lia. reflexivity.
    - intros i Hi. rewrite firstn_length in Hi. cbn [length] in Hi. unfold slot. cbn [b_size b_head b_ent]. rewrite MI.
      destruct (Z.eqb_spec ((b_head b + 1 - i) mod b_size b) ((b_head b + 1) mod b_size b)) as [Ei|Ei].
      + apply HJ in Ei; lia.
      + replace (b_head b + 1 - i) with (b_head b - (i - 1)) by lia. fold (slot b (i - 1)). apply (rg_out _ _ R). clear - Hi Hl Sp. lia. }
  (* bumping *)
  assert (forall c0 L', L = (f, t, c0) :: L' -> ring (firstn (Z.to_nat (b_size b)) ((f, t, c0 + 1) :: L')) (bt_add b f t)) as BUMP.
  { intros c0 L' ->. pose proof (rg_in _ _ R 0 ltac:(cbn [length]; lia)) as E0. change (nth (Z.to_nat 0) ((f, t, c0) :: L') (0, 0, 0)) with (f, t, c0) in E0.
    rewrite S0 in E0. cbn [length] in Hl. rewrite firstn_all2 by (cbn [length]; lia). unfold bt_add. rewrite E0, !Z.eqb_refl. cbn [andb].
    destruct (F f t c0 ltac:(left; reflexivity)) as (_ & _ & Hc). rewrite (wrap_id 32 (c0 + 1)) by (unfold inw; lia).
    split; cbn [b_size b_head b_ent length]; try apply R; try lia.
    - intros i Hi. unfold slot. cbn [b_size b_head b_ent]. destruct (Z.eqb_spec ((b_head b - i) mod b_size b) (b_head b)) as [Ei|Ei].
      + apply HI in Ei; [|lia]. subst i. reflexivity.
      + assert (i <> 0) by (intros ->; apply Ei, HI; lia). fold (slot b i). rewrite (rg_in _ _ R) by (cbn [length]; lia).
        replace (Z.to_nat i) with (S (Z.to_nat (i - 1))) by lia. reflexivity.
    - intros i Hi. unfold slot. cbn [b_size b_head b_ent]. destruct (Z.eqb_spec ((b_head b - i) mod b_size b) (b_head b)) as [Ei|Ei].
      + apply HI in Ei; lia.
      + fold (slot b i). apply (rg_out _ _ R). cbn [length]. lia. }
  split; [|unfold bt_add; destruct (b_ent b (b_head b)) as [[f0 t0] c0]; destruct (_ && _); reflexivity].
  destruct L as [|[[f0 t0] c0] L']; cbn [rle_add].
  - pose proof (rg_out _ _ R 0 ltac:(cbn [length]; lia)) as E0. rewrite S0 in E0.
    destruct ((f =? 0) && (t =? 0)) eqn:Z0; [|apply (ADV 0 0 0); [exact E0|exact Z0]].
    apply andb_true_iff in Z0 as [Zf Zt]. apply Z.eqb_eq in Zf, Zt. subst f t.
    unfold bt_add. rewrite E0. cbn [andb Z.eqb]. change (wrap 32 (0 + 1)) with 1.
    rewrite firstn_all2 by (cbn [length]; lia).
    split; cbn [b_size b_head b_ent length]; try apply R; try lia.
    + intros i Hi. assert (i = 0) by lia. subst i. unfold slot. cbn [b_size b_head b_ent]. rewrite Z.sub_0_r, (Z.mod_small (b_head b)), Z.eqb_refl by lia. reflexivity.
    + intros i Hi. unfold slot. cbn [b_size b_head b_ent]. destruct (Z.eqb_spec ((b_head b - i) mod b_size b) (b_head b)) as [Ei|Ei].
      * apply HI in Ei; lia.
      * fold (slot b i). apply (rg_out _ _ R). cbn [length]. lia.
  - destruct ((f0 =? f) && (t0 =? t)) eqn:Eq.
    + apply andb_true_iff in Eq as [Ef Et]. apply Z.eqb_eq in Ef, Et. subst f0 t0. apply BUMP; reflexivity.
    + pose proof (rg_in _ _ R 0 ltac:(cbn [length]; lia)) as E0. rewrite S0 in E0. cbn in E0. apply (ADV c0 f0 t0); [exact E0|].
      rewrite (Z.eqb_sym f), (Z.eqb_sym t). exact Eq.
Qed.

Lemma bt_copy_ok L b : ring L b -> (forall f t c, In (f, t, c) L -> 0 < c) -> forall fuel j new, 0 <= j < b_size b ->
  let '(new', rest) := bt_copy b fuel ((b_head b - j) mod b_size b) new in
  let k := Nat.min fuel (length L - Z.to_nat j) in
  (rest = fuel - k)%nat /\
  (forall i, Z.of_nat rest <= i < Z.of_nat fuel -> new' i = nth (Z.to_nat (j + (Z.of_nat fuel - 1 - i))) L (0, 0, 0)) /\
  (forall i, ~ (Z.of_nat rest <= i < Z.of_nat fuel) -> new' i = new i).
Proof.
  intros R Pos. pose proof (ring_pos _ _ R) as Sp. pose proof (rg_head _ _ R) as Hd. pose proof (rg_len _ _ R) as Hl.
  induction fuel as [|f IH]; intros j new Hj; cbn [bt_copy].
  - split; [reflexivity|]. split; [lia|reflexivity].
  - fold (slot b j). destruct (Z_lt_dec j (Z.of_nat (length L))) as [Hjl|Hjl].
    + rewrite (rg_in _ _ R j) by lia. set (e := nth (Z.to_nat j) L (0, 0, 0)).
      assert (In e L) as He by (apply nth_In; lia). destruct (0 <? snd e) eqn:Ec; [|destruct e as [[x y] c]; cbn in Ec; specialize (Pos x y c He); lia].
      assert (let o := (b_head b - j) mod b_size b - 1 in (if o <? 0 then b_size b - 1 else o) = (b_head b - (j + 1)) mod b_size b) as Eo.
      { cbv zeta. pose proof (Z.mod_pos_bound (b_head b - j) (b_size b) ltac:(lia)) as MB. pose proof (Z.div_mod (b_head b - j) (b_size b) ltac:(lia)) as DM.
        destruct (_ <? 0) eqn:Eo.
        - apply (Z.mod_unique _ _ ((b_head b - j) / b_size b - 1)); [lia|]. lia.
        - apply (Z.mod_unique _ _ ((b_head b - j) / b_size b)); [lia|]. lia. }
      cbv zeta in Eo. cbv zeta. rewrite Eo. destruct (Z.eqb_spec ((b_head b - (j + 1)) mod b_size b) (b_head b)) as [Ez|Ez].
      * assert (j + 1 = b_size b) as Ej.
        { assert ((j + 1) mod b_size b = 0) as Em.
          { replace (j + 1) with (b_head b - (b_head b - (j + 1))) by lia. rewrite Zminus_mod, Ez, Zminus_mod_idemp_l, Z.sub_diag. apply Z.mod_0_l; lia. }
          destruct (Z.eq_dec (j + 1) (b_size b)) as [->|]; [reflexivity|]. rewrite Z.mod_small in Em; lia. }
        split; [clear - Hjl Hl Ej Hj; lia|]. split; intros i Hi.
        -- assert (i = Z.of_nat f) by (clear - Hi; lia). subst i. rewrite Z.eqb_refl. unfold e. f_equal. clear - Hj. lia.
        -- destruct (Z.eqb_spec i (Z.of_nat f)); [clear - Hi e0; lia|reflexivity].
      * assert (j + 1 < b_size b) as Hj'.
        { destruct (Z.eq_dec (j + 1) (b_size b)) as [Ej|]; [|lia]. destruct Ez. rewrite Ej. rewrite <- (Z.mod_small (b_head b) (b_size b)) at 2 by lia.
          replace (b_head b - b_size b) with (b_head b + (-1) * b_size b) by lia. apply Z.mod_add. lia. }
        specialize (IH (j + 1) (fun i => if i =? Z.of_nat f then e else new i) ltac:(lia)).
        destruct (bt_copy b f _ _) as [new' rest]. destruct IH as (I1 & I2 & I3).
        split; [clear - I1 Hjl Hj; lia|]. assert (Z.of_nat rest <= Z.of_nat f) as Hr by (clear - I1; lia). split; intros i Hi.
        -- destruct (Z.eq_dec i (Z.of_nat f)) as [->|Nf].
           ++ rewrite I3 by lia. rewrite Z.eqb_refl. unfold e. f_equal. clear - Hj. lia.
           ++ rewrite I2 by (clear - Hi Nf; lia). f_equal. clear - Hi Hj. lia.
        -- rewrite I3 by (clear - Hi Hr; lia). destruct (Z.eqb_spec i (Z.of_nat f)); [clear - Hi Hr e0; lia|reflexivity].
    + rewrite (rg_out _ _ R j) by lia. change (0 <? snd (0, 0, 0)) with false. cbv iota. split; [clear - Hjl Hj; lia|]. split; intros i Hi; [clear - Hi; lia|reflexivity].
Qed.
Lemma ring_resize L b n : ring L b -> (forall f t c, In (f, t, c) L -> 0 < c) -> 0 <= n < 2 ^ 31 ->
  match bt_resize b n with
  | Some b' => pow2 n = true /\ ring (firstn (Z.to_nat n) L) b' /\ b_size b' = n
  | None => pow2 n = false
  end.
Proof.
  intros R Pos Hn. unfold bt_resize. rewrite popcount_pow2 by lia. destruct (pow2 n) eqn:P2; [|reflexivity].
  pose proof (ring_pos _ _ R) as Sp. pose proof (rg_head _ _ R) as Hd.
  assert (0 < n) as Np by (apply andb_true_iff in P2 as [P2 _]; apply Z.ltb_lt in P2; exact P2).
  pose proof (bt_copy_ok L b R Pos (Z.to_nat n) 0 (fun _ => (0, 0, 0)) ltac:(lia)) as K. rewrite Z.sub_0_r, Z.mod_small in K by lia.
  destruct (bt_copy b (Z.to_nat n) (b_head b) (fun _ => (0, 0, 0))) as [new rest]. destruct K as (K1 & K2 & K3).
  split; [reflexivity|]. split; [|reflexivity].
  assert (forall i, 0 <= i < n -> (n - 1 - i) mod n = n - 1 - i) as MI by (intros; apply Z.mod_small; lia).
  split; cbn [b_size b_head b_ent]; try assumption; try lia.
  - pose proof (firstn_le_length (Z.to_nat n) L). lia.
  - intros i Hi. rewrite firstn_length in Hi. unfold slot. cbn [b_size b_head b_ent]. rewrite MI by (clear - Hi Np; lia).
    destruct (n - 1 - i <? Z.of_nat rest) eqn:E; [exfalso; clear - E Hi K1 Np; lia|].
    rewrite K2 by (clear - E Hi K1 Np; lia).
    assert (forall (l : list (Z * Z * Z)) n k d, (k < n)%nat -> nth k (firstn n l) d = nth k l d) as NF.
    { clear. induction l as [|x l IH]; intros [|n] [|k] d Hk; cbn; try lia; try reflexivity. apply IH; lia. }
    rewrite NF by (clear - Hi Np; lia). f_equal. clear - Hi Np. lia.
  - intros i Hi. rewrite firstn_length in Hi. unfold slot. cbn [b_size b_head b_ent]. rewrite MI by (clear - Hi Np; lia).
    destruct (n - 1 - i <? Z.of_nat rest) eqn:E; [reflexivity|]. apply K3. clear - E Hi K1 Np. lia.
Qed.
Lemma ring_init : ring [] bt_init.
Proof. split; try reflexivity; cbn; lia. Qed.

Lemma In_firstn' {A} n (l : list A) x : In x (firstn n l) -> In x l.
Proof. revert l; induction n as [|n IH]; intros [|y l] H; cbn in *; try contradiction. destruct H as [H|H]; [left; exact H|right; apply IH, H]. Qed.
Lemma fits_add n L f t : fits n L -> 0 <= n -> 0 <= f < 2 ^ 32 -> 0 <= t < 2 ^ 32 -> fits (n + 1) (rle_add f t L).
Proof.
  intros F Hn Hf Ht x y c H. destruct L as [|[[f0 t0] c0] L']; cbn [rle_add] in H.
  - destruct H as [H|[]]. assert (x = f /\ y = t /\ c = 1) as (-> & -> & ->) by (repeat split; congruence). lia.
  - destruct (_ && _).
    + destruct H as [H|H].
      * assert (x = f0 /\ y = t0 /\ c = c0 + 1) as (-> & -> & ->) by (repeat split; congruence). destruct (F f0 t0 c0 ltac:(left; reflexivity)) as (A & B & C). lia.
      * destruct (F x y c ltac:(right; exact H)) as (A & B & C). lia.
    + destruct H as [H|H].
      * assert (x = f /\ y = t /\ c = 1) as (-> & -> & ->) by (repeat split; congruence). lia.
      * destruct (F x y c H) as (A & B & C). lia.
Qed.
Lemma trace_step_ok l : forall n L b, ring L b -> fits n L -> 0 <= n -> n + Z.of_nat (length l) < 2 ^ 32 -> trace_good l ->
  exists L', fold_left trace_spec l (L, b_size b) = (L', b_size (fold_left bt_step l b)) /\
    ring L' (fold_left bt_step l b) /\ fits (n + Z.of_nat (length l)) L'.
Proof.
  induction l as [|o l IH]; intros n L b R F Hn Hl G.
  - exists L. cbn [fold_left length]. rewrite Z.add_0_r. split; [reflexivity|]. split; assumption.
  - cbn [length] in Hl |- *. destruct G as [G1 G2]. cbn [fold_left]. destruct o as [f t|sz]; cbn [bt_step trace_spec trace_good1] in *.
    + destruct G1 as [Hf Ht]. destruct (ring_add n L b f t R F ltac:(lia) Hf Ht) as [R1 E1].
      assert (fits (n + 1) (firstn (Z.to_nat (b_size b)) (rle_add f t L))) as F1.
      { intros x y c H. apply In_firstn' in H. exact (fits_add n L f t F Hn Hf Ht x y c H). }
      destruct (IH (n + 1) _ _ R1 F1 ltac:(lia) ltac:(lia) G2) as (L' & K1 & K2 & K3). rewrite E1 in K1.
      exists L'. split; [exact K1|]. split; [exact K2|]. replace (n + Z.of_nat (S (length l))) with (n + 1 + Z.of_nat (length l)) by lia. exact K3.
    + pose proof (ring_resize L b sz R ltac:(intros x y c H; destruct (F x y c H) as (_ & _ & C); lia) G1) as K.
      destruct (bt_resize b sz) as [b'|].
      * destruct K as (P2 & R1 & E1). rewrite P2.
        assert (fits (n + 1) (firstn (Z.to_nat sz) L)) as F1.
        { intros x y c H. apply In_firstn' in H. destruct (F x y c H) as (A & B & C). lia. }
        destruct (IH (n + 1) _ _ R1 F1 ltac:(lia) ltac:(lia) G2) as (L' & K1 & K2 & K3). rewrite E1 in K1.
        exists L'. split; [exact K1|]. split; [exact K2|]. replace (n + Z.of_nat (S (length l))) with (n + 1 + Z.of_nat (length l)) by lia. exact K3.
      * rewrite K. assert (fits (n + 1) L) as F1 by (intros x y c H; destruct (F x y c H) as (A & B & C); lia).
        destruct (IH (n + 1) _ _ R F1 ltac:(lia) ltac:(lia) G2) as (L' & K1 & K2 & K3).
        exists L'. split; [exact K1|]. split; [exact K2|]. replace (n + Z.of_nat (S (length l))) with (n + 1 + Z.of_nat (length l)) by lia. exact K3.
Qed.
Lemma trace_main l : trace_good l -> Z.of_nat (length l) < 2 ^ 32 ->
  bt_list (fold_left bt_step l bt_init) = fst (fold_left trace_spec l ([], 16)).
Proof.
  intros G Hl. destruct (trace_step_ok l 0 [] bt_init ring_init ltac:(intros ? ? ? []) ltac:(lia) Hl G) as (L' & K1 & K2 & K3).
  cbn [b_size bt_init] in K1. rewrite K1. cbn [fst]. apply bt_list_ok; [exact K2|]. intros f t c H. destruct (K3 f t c H) as (_ & _ & C). lia.
Qed.

(** ** C54 *)
Lemma read_main max m a len : 0 <= a < 2 ^ 64 -> 0 <= max < 2 ^ 64 - 1 -> 0 <= len < 2 ^ 64 ->
  read_memory max m a len = if max <? a then None else Some (map (fun i => m (a + i)) (zrange (Z.min len (max - a + 1)))).
Proof.
  intros Ha Hm Hl. unfold read_memory. destruct (max <? a) eqn:E; [reflexivity|].
  rewrite (wrap_id 64 (max - a)), (wrap_id 64 (max - a + 1)) by (unfold inw; lia). reflexivity.
Qed.
Lemma write_main max m a len v : 0 <= a < 2 ^ 64 -> 0 <= max < 2 ^ 64 - 1 -> 0 <= len < 2 ^ 64 ->
  match write_memory max m a len v with
  | None => max < a
  | Some (m', n) => a <= max /\ n = Z.min len (max - a + 1) /\
      (forall i, 0 <= i < n -> m' (a + i) = (v / 2 ^ (8 * i)) mod 256) /\
      (forall x, ~ (a <= x < a + n) -> m' x = m x)
  end.
Proof.
  intros Ha Hm Hl. unfold write_memory. destruct (max <? a) eqn:E; [lia|].
  rewrite (wrap_id 64 (max - a)), (wrap_id 64 (max - a + 1)) by (unfold inw; lia).
  split; [lia|]. split; [reflexivity|]. split; intros i Hi.
  - rewrite store_le_same by lia. replace (a + i - a) with i by lia. reflexivity.
  - apply store_le_other. lia.
Qed.
Lemma write_read_main max m a len v m' n : 0 <= a < 2 ^ 64 -> 0 <= max < 2 ^ 64 - 1 -> 0 <= len < 2 ^ 64 ->
  write_memory max m a len v = Some (m', n) ->
  read_memory max m' a len = Some (map (fun i => (v / 2 ^ (8 * i)) mod 256) (zrange n)).
Proof.
  intros Ha Hm Hl E. pose proof (write_main max m a len v Ha Hm Hl) as W. rewrite E in W. destruct W as (W1 & W2 & W3 & W4).
  rewrite read_main by assumption. destruct (max <? a) eqn:Em; [lia|]. rewrite <- W2. f_equal. apply map_ext_in. intros i Hi.
  apply zrange_in in Hi. apply W3. lia.
Qed.
