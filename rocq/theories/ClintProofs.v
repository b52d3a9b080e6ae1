(** Proofs for C46. *)
From Coq Require Import ZArith Bool List Lia.
From Verif Require Import Bits ClintSpec ClintModel.
Import ListNotations.
Local Open Scope Z_scope.

Definition line_right (k : clint) : Prop := k_line_t k = (k_mtimecmp k <=? k_mtime k).
Definition sync (k : clint) : Prop := k_line_t k = k_mtip k.
Definition ranges (k : clint) : Prop := inw 64 (k_mtime k) /\ inw 64 (k_mtimecmp k) /\ 0 <= k_msip k <= 1.

Lemma update_line k : sync k -> line_right (update_mtip k) /\ sync (update_mtip k).
Proof.
  unfold sync, line_right, update_mtip. intros S. destruct (eqb _ _) eqn:E.
  - apply eqb_prop in E. rewrite S, E. split; reflexivity.
  - split; reflexivity.
Qed.
Lemma update_same k : k_mtime (update_mtip k) = k_mtime k /\ k_mtimecmp (update_mtip k) = k_mtimecmp k /\
  k_uc (update_mtip k) = k_uc k /\ k_period (update_mtip k) = k_period k /\ k_msip (update_mtip k) = k_msip k /\
  k_line_s (update_mtip k) = k_line_s k.
Proof. unfold update_mtip. destruct (eqb _ _); repeat split. Qed.
Lemma off_mod a : Z.land a 0xffff = a mod 0x10000.
Proof. change 0xffff with (Z.ones 16). rewrite Z.land_ones by lia. reflexivity. Qed.

(** Generic case analysis of a write. *)
Lemma write_cases k off v (P : clint -> Prop) :
  (off = 0 -> P (write_msip k v)) -> (off = 0x4000 -> P (write_cmp_low k v)) -> (off = 0x4004 -> P (write_cmp_high k v)) ->
  (off = 0xbff8 -> P (let k1 := write_time_low k v in with_time k1 (k_mtime k1) 0)) ->
  (off = 0xbffc -> P (write_time_high k v)) -> P k -> P (write k off v).
Proof.
  intros. unfold write. destruct (Z.eqb_spec off 0); [auto|]. destruct (Z.eqb_spec off 0x4000); [auto|].
  destruct (Z.eqb_spec off 0x4004); [auto|]. destruct (Z.eqb_spec off 0xbff8); [auto|]. destruct (Z.eqb_spec off 0xbffc); auto.
Qed.
Lemma store_cases k a n v (P : clint -> Prop) : P k ->
  (forall x, inw 32 x -> P (write k (a mod 0x10000) x)) -> P (store k a n v).
Proof.
  intros P0 H. unfold store. rewrite off_mod.
  assert (inw 32 (wrap 8 v)) by (apply (inw_weaken 8 32); [lia|apply wrap_range; lia]).
  assert (inw 32 (wrap 16 v)) by (apply (inw_weaken 16 32); [lia|apply wrap_range; lia]).
  assert (inw 32 (wrap 32 v)) by (apply wrap_range; lia).
  destruct (n =? 1); [auto|]. destruct (n =? 2); [auto|]. destruct (n =? 4); [auto|]. destruct (n =? 8); auto.
Qed.
Lemma step_sync k o : sync k -> sync (step k o).
Proof.
  intros S. destruct o; cbn [step]; [| exact S | | exact S].
  - unfold set_value. destruct (_ <=? _); [apply update_line; exact S|exact S].
  - apply store_cases; [exact S|]. intros x _. apply write_cases; intros _ || exact S; try exact S; apply update_line; exact S.
Qed.
Lemma step_line k o : sync k -> writes_mtime o = false -> line_right k -> line_right (step k o).
Proof.
  intros S W L. destruct o as [|a n|a n v|]; cbn [step]; [| exact L | | discriminate].
  - unfold set_value. destruct (_ <=? _); [apply update_line; exact S|exact L].
  - cbn [writes_mtime] in W. apply orb_false_iff in W as [W1 W2]. unfold a_mtime in *. apply Z.eqb_neq in W1, W2.
    apply store_cases; [exact L|]. intros x _. apply write_cases; intros; try exact L; try (apply update_line; exact S); exfalso; lia.
Qed.
Lemma init_ok p : sync (init p) /\ line_right (init p) /\ k_period (init p) = p.
Proof.
  unfold init. set (k1 := set_value _). match goal with |- context [update_mtip ?k] => set (k2 := k) end.
  assert (sync k2) as S by reflexivity.
  split; [apply update_line, S|]. split; [apply update_line, S|]. destruct (update_same k2) as (_ & _ & _ & -> & _).
  subst k2 k1. cbn [k_period]. unfold set_value. destruct (_ <=? _); [|reflexivity].
  match goal with |- k_period (update_mtip ?k) = _ => destruct (update_same k) as (_ & _ & _ & -> & _) end. reflexivity.
Qed.
Lemma run_sync p l : sync (run p l).
Proof.
  unfold run. assert (sync (init p)) as S by apply init_ok. revert S. generalize (init p).
  induction l as [|o l IH]; intros k S; [exact S|]. cbn [fold_left]. apply IH, step_sync, S.
Qed.
(** Any state reached by a history that never writes mtime. *)
Lemma line_main p l : Forall (fun o => writes_mtime o = false) l ->
  k_line_t (run p l) = (k_mtimecmp (run p l) <=? k_mtime (run p l)).
Proof.
  intros F. unfold run. pose proof (init_ok p) as (S & L & _). revert S L. generalize (init p).
  induction F as [|o l W F IH]; intros k S L; [exact L|]. cbn [fold_left]. apply IH; [apply step_sync, S|apply step_line; assumption].
Qed.
(** Whatever happened before, a write of mtimecmp or a tick that completes a period makes the
    line right again. *)
Lemma line_repaired p l o :
  (match o with
   | Store a n _ => (a mod 0x10000 = a_mtimecmp \/ a mod 0x10000 = a_mtimecmp + 4) /\ (n = 1 \/ n = 2 \/ n = 4 \/ n = 8)
   | Tick => p <= k_uc (run p l) + 1
   | _ => False end) ->
  let k := step (run p l) o in k_line_t k = (k_mtimecmp k <=? k_mtime k).
Proof.
  intros H k. pose proof (run_sync p l) as S. subst k. set (k := run p l) in *.
  assert (k_period k = p) as P.
  { subst k. unfold run. pose proof (init_ok p) as (_ & _ & P). revert P. generalize (init p). clear. induction l as [|o l IH]; intros k P; [exact P|].
    cbn [fold_left]. apply IH. destruct o; cbn [step]; [|exact P| |exact P].
    - unfold set_value. destruct (_ <=? _); [|exact P]. match goal with |- k_period (update_mtip ?k) = _ => destruct (update_same k) as (_ & _ & _ & -> & _) end. exact P.
    - apply (store_cases k addr size value (fun k => k_period k = p)); [exact P|]. intros x _.
      apply (write_cases k _ x (fun k => k_period k = p)); intros; try exact P;
      unfold write_cmp_low, write_cmp_high; match goal with |- k_period (update_mtip ?k) = _ => destruct (update_same k) as (_ & _ & _ & -> & _) end; exact P. }
  destruct o as [|a n|a n v|]; try contradiction; cbn [step].
  - unfold set_value. rewrite P. destruct (Z.leb_spec p (k_uc k + 1)); [|lia]. apply update_line. exact S.
  - destruct H as [A N]. unfold store. rewrite off_mod.
    assert (forall x, line_right (write k (a mod 65536) x)) as Wr.
    { intros x. unfold write. unfold a_mtimecmp in A. destruct A as [-> | ->]; cbn [Z.eqb Pos.eqb Z.add Pos.add]; apply update_line; exact S. }
    destruct N as [->|[->|[->| ->]]]; cbn [Z.eqb Pos.eqb]; apply Wr.
Qed.

(** mtime counts periods. *)
Lemma tick_time p k : k_period k = p -> 0 < p -> 0 <= k_uc k < p -> inw 64 (k_mtime k) ->
  let k' := set_value k in k_period k' = p /\ 0 <= k_uc k' < p /\ inw 64 (k_mtime k') /\
  k_mtime k' = (k_mtime k + (k_uc k + 1) / p) mod 2 ^ 64 /\ k_uc k' = (k_uc k + 1) mod p.
Proof.
  intros P Hp U T. unfold set_value. rewrite P. destruct (Z.leb_spec p (k_uc k + 1)).
  - cbv zeta. match goal with |- context [update_mtip ?k] => destruct (update_same k) as (-> & _ & -> & -> & _) end. cbn [k_mtime k_uc k_period with_time].
    assert (k_uc k + 1 = p) as -> by lia. rewrite Z_div_same_full, Z_mod_same_full by lia.
    repeat split; try lia; try exact P; apply wrap_range; lia.
  - cbn [k_mtime k_uc k_period with_time]. rewrite (Z.div_small (k_uc k + 1) p), (Z.mod_small (k_uc k + 1) p), Z.add_0_r by lia. rewrite (Z.mod_small (k_mtime k)) by exact T. repeat split; try lia; try exact P; apply T.
Qed.
Lemma store_time k a n v : writes_mtime (Store a n v) = false ->
  let k' := store k a n v in k_mtime k' = k_mtime k /\ k_uc k' = k_uc k /\ k_period k' = k_period k.
Proof.
  intros W. cbn [writes_mtime] in W. apply orb_false_iff in W as [W1 W2]. unfold a_mtime in *. apply Z.eqb_neq in W1, W2.
  apply (store_cases k a n v (fun k' => k_mtime k' = k_mtime k /\ k_uc k' = k_uc k /\ k_period k' = k_period k)); [auto|]. intros x _.
  apply (write_cases k _ x (fun k' => k_mtime k' = k_mtime k /\ k_uc k' = k_uc k /\ k_period k' = k_period k)); intros; try (exfalso; lia); auto;
   unfold write_cmp_low, write_cmp_high; match goal with |- context [update_mtip ?k] => destruct (update_same k) as (-> & _ & -> & -> & _) end; auto.
Qed.
Lemma time_gen p l : 0 < p -> Forall (fun o => writes_mtime o = false) l -> forall k,
  k_period k = p -> 0 <= k_uc k < p -> inw 64 (k_mtime k) ->
  k_mtime (fold_left step l k) = (k_mtime k + (k_uc k + ticks l) / p) mod 2 ^ 64.
Proof.
  intros Hp F. induction F as [|o l W F IH]; intros k P U T.
  - cbn. rewrite Z.add_0_r, Z.div_small, Z.add_0_r by lia. symmetry. apply Z.mod_small, T.
  - cbn [fold_left]. destruct o as [|a n|a n v|]; cbn [step]; [| | |discriminate].
    + destruct (tick_time p k P Hp U T) as (P' & U' & T' & Et & Eu). rewrite IH by assumption. rewrite Et, Eu.
      replace (ticks (Tick :: l)) with (1 + ticks l) by (unfold ticks; cbn [filter length]; lia).
      rewrite Zplus_mod_idemp_l. f_equal. rewrite <- Z.add_assoc. f_equal.
      rewrite <- (Z.div_add_l ((k_uc k + 1) / p)) by lia. f_equal. pose proof (Z.div_mod (k_uc k + 1) p). lia.
    + rewrite IH by assumption. reflexivity.
    + destruct (store_time k a n v W) as (A & B & C). rewrite IH by congruence || (rewrite ?A, ?B; assumption). rewrite A, B. reflexivity.
Qed.
Lemma init_time p : 0 < p -> k_mtime (init p) = (if p =? 1 then 1 else 0) /\ k_uc (init p) = (if p =? 1 then 0 else 1).
Proof.
  intros Hp. unfold init. set (k1 := set_value _). match goal with |- context [update_mtip ?k] => set (k2 := k) end.
  destruct (update_same k2) as (-> & _ & -> & _). subst k2 k1. cbn [k_mtime k_uc]. unfold set_value. cbn [k_uc k_period Z.add].
  destruct (Z.leb_spec p 1), (Z.eqb_spec p 1); try lia.
  - match goal with |- context [update_mtip ?k] => destruct (update_same k) as (-> & _ & -> & _) end. split; reflexivity.
  - split; reflexivity.
Qed.
Lemma time_main p l : 0 < p -> Forall (fun o => writes_mtime o = false) l ->
  k_mtime (run p l) = ((1 + ticks l) / p) mod 2 ^ 64.
Proof.
  intros Hp F. unfold run. pose proof (init_time p Hp) as [T U]. pose proof (init_ok p) as (_ & _ & P).
  rewrite (time_gen p) by (try assumption; rewrite ?T, ?U; destruct (Z.eqb_spec p 1); unfold inw; lia).
  rewrite T, U. f_equal. destruct (Z.eqb_spec p 1) as [->|]; [rewrite !Z.div_1_r; lia|lia].
Qed.

(** Register access. *)
Lemma lor_halves x v k : Z.lor (Z.land x 0xffffffff00000000) v = k -> inw 64 x -> inw 32 v ->
  k = x / 2 ^ 32 * 2 ^ 32 + v.
Proof.
  intros <- Hx Hv. change 0xffffffff00000000 with (Z.shiftl (Z.ones 32) 32).
  assert (Z.land x (Z.shiftl (Z.ones 32) 32) = Z.shiftl (Z.shiftr x 32) 32) as ->.
  { apply Z.bits_inj'. intros i Hi. rewrite Z.land_spec, !Z.shiftl_spec by lia. destruct (Z.ltb_spec i 32).
    - rewrite (Z.testbit_neg_r (Z.ones 32) (i - 32)), (Z.testbit_neg_r (Z.shiftr x 32) (i - 32)) by lia. apply andb_false_r.
    - rewrite Z.shiftr_spec by lia. replace (i - 32 + 32) with i by lia. destruct (Z.ltb_spec i 64).
      + rewrite Z.ones_spec_low by lia. apply andb_true_r.
      + rewrite (inw_testbit_high 64 x i) by (assumption || lia). reflexivity. }
  assert (Z.land (Z.shiftl (Z.shiftr x 32) 32) v = 0) as D.
  { apply Z.bits_inj'. intros i Hi. rewrite Z.land_spec, Z.shiftl_spec, Z.bits_0 by lia. destruct (Z.ltb_spec i 32).
    - rewrite (Z.testbit_neg_r (Z.shiftr x 32) (i - 32)) by lia. reflexivity.
    - rewrite (inw_testbit_high 32 v i) by (assumption || lia). apply andb_false_r. }
  rewrite <- Z.lxor_lor, <- Z.add_nocarry_lxor by exact D. rewrite Z.shiftl_mul_pow2, Z.shiftr_div_pow2 by lia. reflexivity.
Qed.
Lemma lor_high x v : inw 64 x -> inw 32 v -> Z.lor (Z.land x 0xffffffff) (wrap 64 (Z.shiftl v 32)) = v * 2 ^ 32 + x mod 2 ^ 32.
Proof.
  intros Hx Hv. change 0xffffffff with (Z.ones 32). rewrite Z.land_ones by lia.
  assert (wrap 64 (Z.shiftl v 32) = Z.shiftl v 32) as ->.
  { apply wrap_id. rewrite Z.shiftl_mul_pow2 by lia. unfold inw in *. change (2 ^ 64) with (2 ^ 32 * 2 ^ 32). lia. }
  assert (Z.land (x mod 2 ^ 32) (Z.shiftl v 32) = 0) as D.
  { apply Z.bits_inj'. intros i Hi. rewrite Z.land_spec, Z.shiftl_spec, Z.bits_0 by lia. destruct (Z.ltb_spec i 32).
    - rewrite (Z.testbit_neg_r v (i - 32)) by lia. apply andb_false_r.
    - rewrite Z.mod_pow2_bits_high by lia. reflexivity. }
  rewrite <- Z.lxor_lor, <- Z.add_nocarry_lxor by exact D. rewrite Z.shiftl_mul_pow2 by lia. lia.
Qed.
Lemma step_ranges k o : ranges k -> ranges (step k o).
Proof.
  intros (A & B & C). assert (ranges k) as R by (repeat split; apply A || apply B || apply C).
  assert (forall x v, inw 64 x -> inw 32 v -> inw 64 (Z.lor (Z.land x 0xffffffff00000000) v)) as Lo.
  { intros x v Hx Hv. rewrite (lor_halves x v _ eq_refl) by assumption. unfold inw in *. pose proof (Z.div_pos x (2 ^ 32)). assert (x / 2 ^ 32 <= 2 ^ 32 - 1).
    { change (2 ^ 32 - 1) with ((2 ^ 64 - 1) / 2 ^ 32). apply Z.div_le_mono; lia. } change (2 ^ 64) with (2 ^ 32 * 2 ^ 32) in *. nia. }
  assert (forall x v, inw 64 x -> inw 32 v -> inw 64 (Z.lor (Z.land x 0xffffffff) (wrap 64 (Z.shiftl v 32)))) as Hi.
  { intros x v Hx Hv. rewrite lor_high by assumption. unfold inw in *. pose proof (Z.mod_pos_bound x (2 ^ 32)). change (2 ^ 64) with (2 ^ 32 * 2 ^ 32). nia. }
  assert (forall v, 0 <= Z.land v 1 <= 1) as L1.
  { intros v. assert (Z.land v 1 = v mod 2) as -> by (change 1 with (Z.ones 1) at 1; apply Z.land_ones; lia). pose proof (Z.mod_pos_bound v 2). lia. }
  assert (forall k, ranges k -> ranges (update_mtip k)) as Up.
  { intros k0 R0. unfold ranges. destruct (update_same k0) as (-> & -> & _ & _ & -> & _). exact R0. }
  assert (inw 32 0) as Z0 by (unfold inw; lia).
  destruct o; cbn [step]; [|exact R| |].
  - unfold set_value. destruct (_ <=? _); [apply Up|].
    + split; [apply wrap_range; lia|]. split; [exact B|exact C].
    + split; [exact A|]. split; [exact B|exact C].
  - apply store_cases; [exact R|]. intros x Hx. apply write_cases; [intros _..|exact R].
    + split; [exact A|]. split; [exact B|apply L1].
    + apply Up. split; [exact A|]. split; [apply Lo; assumption|exact C].
    + apply Up. split; [exact A|]. split; [apply Hi; assumption|exact C].
    + split; [apply Lo; assumption|]. split; [exact B|exact C].
    + split; [apply Hi; assumption|]. split; [exact B|exact C].
  - unfold reset. split; [|split; [exact B|apply L1]]. cbn [k_mtime write_msip write_time_high write_time_low with_time]. apply Hi; [apply Lo; assumption|assumption].
Qed.
Lemma run_ranges p l : ranges (run p l).
Proof.
  unfold run. assert (ranges (init p)) as R.
  { unfold init. match goal with |- ranges (update_mtip ?k) => set (k2 := k) end. assert (ranges k2) as R2.
    { subst k2. cbv zeta. unfold ranges. cbn [k_mtime k_mtimecmp k_msip]. unfold set_value. cbn [k_uc k_period]. destruct (p <=? 0 + 1).
      - match goal with |- context [update_mtip ?k] => destruct (update_same k) as (-> & -> & _ & _ & -> & _) end. cbn. unfold inw. lia.
      - cbn. unfold inw. lia. }
    unfold ranges. destruct (update_same k2) as (-> & -> & _ & _ & -> & _). exact R2. }
  revert R. generalize (init p). induction l as [|o l IH]; intros k R; [exact R|]. cbn [fold_left]. apply IH, step_ranges, R.
Qed.
Lemma load_words k : ranges k ->
  load k a_mtimecmp 4 = k_mtimecmp k mod 2 ^ 32 /\ load k (a_mtimecmp + 4) 4 = k_mtimecmp k / 2 ^ 32 /\
  load k a_mtimecmp 8 = k_mtimecmp k /\ load k a_mtime 4 = k_mtime k mod 2 ^ 32 /\
  load k (a_mtime + 4) 4 = k_mtime k / 2 ^ 32 /\ load k a_mtime 8 = k_mtime k /\ load k a_msip 4 = k_msip k.
Proof.
  intros (A & B & C). unfold load, a_mtimecmp, a_mtime, a_msip, read.
  assert (forall x, inw 64 x -> wrap 32 (Z.land x 0xffffffff) = x mod 2 ^ 32 /\ wrap 32 (Z.shiftr x 32) = x / 2 ^ 32) as W.
  { intros x Hx. split.
    - change 0xffffffff with (Z.ones 32). rewrite Z.land_ones by lia. apply wrap_wrap. lia.
    - rewrite Z.shiftr_div_pow2 by lia. apply wrap_id. unfold inw in *. split; [apply Z.div_pos; lia|]. apply Z.div_lt_upper_bound; [lia|]. change (2 ^ 32 * 2 ^ 32) with (2 ^ 64). lia. }
  destruct (W _ A) as [A1 A2]. destruct (W _ B) as [B1 B2].
  change (Z.land 16384 65535) with 16384. change (Z.land (16384 + 4) 65535) with 16388. change (Z.land 49144 65535) with 49144.
  change (Z.land (49144 + 4) 65535) with 49148. change (Z.land 0 65535) with 0. change (16384 + 4) with 16388. change (49144 + 4) with 49148.
  cbn [Z.eqb Pos.eqb]. rewrite A1, A2, B1, B2.
  assert (forall x, x mod 2 ^ 32 + 2 ^ 32 * (x / 2 ^ 32) = x) as S by (intros x; pose proof (Z.div_mod x (2 ^ 32)); lia).
  rewrite !S. repeat split; try reflexivity. apply wrap_id. unfold inw. lia.
Qed.
Lemma store_words p l v : inw 32 v -> let k := run p l in
  k_mtimecmp (step k (Store a_mtimecmp 4 v)) = k_mtimecmp k / 2 ^ 32 * 2 ^ 32 + v /\
  k_mtimecmp (step k (Store (a_mtimecmp + 4) 4 v)) = v * 2 ^ 32 + k_mtimecmp k mod 2 ^ 32 /\
  k_mtime (step k (Store a_mtime 4 v)) = k_mtime k / 2 ^ 32 * 2 ^ 32 + v /\
  k_mtime (step k (Store (a_mtime + 4) 4 v)) = v * 2 ^ 32 + k_mtime k mod 2 ^ 32 /\
  (k_msip (step k (Store a_msip 4 v)) = v mod 2 /\ k_line_s (step k (Store a_msip 4 v)) = Z.odd v).
Proof.
  intros Hv k. pose proof (run_ranges p l) as (A & B & C). fold k in A, B, C.
  cbn [step]. unfold store. change (Z.land a_mtimecmp 65535) with 16384. change (Z.land (a_mtimecmp + 4) 65535) with 16388.
  change (Z.land a_mtime 65535) with 49144. change (Z.land (a_mtime + 4) 65535) with 49148. change (Z.land a_msip 65535) with 0.
  cbn [Z.eqb Pos.eqb]. rewrite wrap_id by exact Hv. unfold write. cbn [Z.eqb Pos.eqb].
  unfold write_cmp_low, write_cmp_high. split; [|split; [|split; [|split]]].
  - match goal with |- context [update_mtip ?k] => destruct (update_same k) as (_ & -> & _) end. cbn [k_mtimecmp with_cmp]. apply lor_halves; auto.
  - match goal with |- context [update_mtip ?k] => destruct (update_same k) as (_ & -> & _) end. cbn [k_mtimecmp with_cmp]. apply lor_high; auto.
  - cbn [k_mtime write_time_low with_time]. apply lor_halves; auto.
  - cbn [k_mtime write_time_high with_time]. apply lor_high; auto.
  - cbn [k_msip k_line_s write_msip]. change 1 with (Z.ones 1). rewrite Z.land_ones by lia. change (2 ^ 1) with 2. split; [reflexivity|].
    rewrite Zmod_odd. destruct (Z.odd v); reflexivity.
Qed.

Lemma step_period k o : k_period (step k o) = k_period k.
Proof.
  destruct o; cbn [step]; [|reflexivity| |reflexivity].
  - unfold set_value. destruct (_ <=? _); [|reflexivity]. match goal with |- k_period (update_mtip ?k) = _ => destruct (update_same k) as (_ & _ & _ & -> & _) end. reflexivity.
  - apply (store_cases k addr size value (fun k' => k_period k' = k_period k)); [reflexivity|]. intros x _.
    apply (write_cases k _ x (fun k' => k_period k' = k_period k)); intros; try reflexivity;
    unfold write_cmp_low, write_cmp_high; match goal with |- k_period (update_mtip ?k) = _ => destruct (update_same k) as (_ & _ & _ & -> & _) end; reflexivity.
Qed.
Lemma run_period p l : k_period (run p l) = p.
Proof.
  unfold run. pose proof (init_ok p) as (_ & _ & P). revert P. generalize (init p). induction l as [|o l IH]; intros k P; [exact P|].
  cbn [fold_left]. apply IH. rewrite step_period. exact P.
Qed.
Lemma step_uc k o p : k_period k = p -> 0 < p -> 0 <= k_uc k < p -> 0 <= k_uc (step k o) < p.
Proof.
  intros P Hp U. destruct o; cbn [step]; [|exact U| |exact U].
  - unfold set_value. rewrite P. destruct (Z.leb_spec p (k_uc k + 1)).
    + match goal with |- context [update_mtip ?k] => destruct (update_same k) as (_ & _ & -> & _) end. cbn [k_uc with_time]. lia.
    + cbn [k_uc with_time]. lia.
  - apply (store_cases k addr size value (fun k' => 0 <= k_uc k' < p)); [exact U|]. intros x _.
    apply (write_cases k _ x (fun k' => 0 <= k_uc k' < p)); intros; try exact U.
    + unfold write_cmp_low. match goal with |- context [update_mtip ?k] => destruct (update_same k) as (_ & _ & -> & _) end. exact U.
    + unfold write_cmp_high. match goal with |- context [update_mtip ?k] => destruct (update_same k) as (_ & _ & -> & _) end. exact U.
    + cbn [k_uc with_time]. lia.
Qed.
Lemma run_uc p l : 0 < p -> 0 <= k_uc (run p l) < p.
Proof.
  intros Hp. unfold run. pose proof (init_ok p) as (_ & _ & P). pose proof (init_time p Hp) as [_ U].
  assert (0 <= k_uc (init p) < p) as U0 by (rewrite U; destruct (Z.eqb_spec p 1); lia). clear U. revert P U0. generalize (init p).
  induction l as [|o l IH]; intros k P U; [exact U|]. cbn [fold_left]. apply IH; [rewrite step_period; exact P|apply step_uc; assumption].
Qed.
Lemma run_app p l1 l2 : run p (l1 ++ l2) = fold_left step l2 (run p l1).
Proof. apply fold_left_app. Qed.
(** Statements through the bus. *)
Definition bus_line (k : clint) : Prop := k_line_t k = (load k a_mtimecmp 8 <=? load k a_mtime 8).
Lemma bus_line_iff p l : bus_line (run p l) <-> line_right (run p l).
Proof.
  unfold bus_line, line_right. destruct (load_words _ (run_ranges p l)) as (_ & _ & -> & _ & _ & -> & _). reflexivity.
Qed.
Lemma line_bus_main p l : Forall (fun o => writes_mtime o = false) l -> bus_line (run p l).
Proof. intros F. apply bus_line_iff. apply line_main, F. Qed.
Lemma repaired_bus_main p l o :
  (exists a n v, o = Store a n v /\ (a mod 0x10000 = a_mtimecmp \/ a mod 0x10000 = a_mtimecmp + 4) /\ In n [1; 2; 4; 8]) \/
  (o = Tick /\ load (run p (l ++ [o])) a_mtime 8 <> load (run p l) a_mtime 8) ->
  bus_line (run p (l ++ [o])).
Proof.
  intros H. apply bus_line_iff. rewrite run_app. cbn [fold_left]. destruct H as [(a & n & v & -> & A & N)|(-> & D)].
  - apply (line_repaired p l (Store a n v)). split; [exact A|]. cbn [In] in N. intuition congruence.
  - apply (line_repaired p l Tick). destruct (Z_le_gt_dec p (k_uc (run p l) + 1)) as [|G]; [assumption|exfalso].
    apply D. destruct (load_words _ (run_ranges p l)) as (_ & _ & _ & _ & _ & -> & _). destruct (load_words _ (run_ranges p (l ++ [Tick]))) as (_ & _ & _ & _ & _ & -> & _).
    rewrite run_app. cbn [fold_left step]. unfold set_value. rewrite run_period. destruct (Z.leb_spec p (k_uc (run p l) + 1)); [lia|reflexivity].
Qed.
Lemma rate_main p l : 0 < p -> exists u, 0 <= u < p /\
  forall l2, Forall (fun o => writes_mtime o = false) l2 ->
  load (run p (l ++ l2)) a_mtime 8 = (load (run p l) a_mtime 8 + (u + ticks l2) / p) mod 2 ^ 64.
Proof.
  intros Hp. exists (k_uc (run p l)). split; [apply run_uc, Hp|]. intros l2 F.
  destruct (load_words _ (run_ranges p l)) as (_ & _ & _ & _ & _ & -> & _). destruct (load_words _ (run_ranges p (l ++ l2))) as (_ & _ & _ & _ & _ & -> & _).
  rewrite run_app. apply time_gen; try assumption; [apply run_period|apply run_uc, Hp|apply run_ranges].
Qed.
Lemma rate_period p l l2 n : 0 < p -> Forall (fun o => writes_mtime o = false) l2 -> ticks l2 = n * p ->
  load (run p (l ++ l2)) a_mtime 8 = (load (run p l) a_mtime 8 + n) mod 2 ^ 64.
Proof.
  intros Hp F T. destruct (rate_main p l Hp) as (u & U & H). rewrite (H l2 F), T, Z.div_add, Z.div_small by lia. reflexivity.
Qed.
Lemma first_main p l : 0 < p -> Forall (fun o => writes_mtime o = false) l -> load (run p l) a_mtime 8 = ((1 + ticks l) / p) mod 2 ^ 64.
Proof.
  intros Hp F. destruct (load_words _ (run_ranges p l)) as (_ & _ & _ & _ & _ & -> & _). apply time_main; assumption.
Qed.
Definition reg_words : list Z := [a_msip; a_mtimecmp; a_mtimecmp + 4; a_mtime; a_mtime + 4].
Lemma raw_main p l v r a : inw 32 v -> In r reg_words -> In a reg_words ->
  load (run p (l ++ [Store r 4 v])) a 4 =
  if a =? r then (if r =? a_msip then v mod 2 else v) else load (run p l) a 4.
Proof.
  intros Hv R A. pose proof (run_ranges p l) as R0. pose proof (run_ranges p (l ++ [Store r 4 v])) as R1.
  destruct (load_words _ R0) as (L1 & L2 & _ & L3 & L4 & _ & L5). destruct (load_words _ R1) as (M1 & M2 & _ & M3 & M4 & _ & M5).
  destruct (store_words p l v Hv) as (S1 & S2 & S3 & S4 & S5 & _).
  rewrite run_app in *. cbn [fold_left] in *. set (k := run p l) in *.
  assert (forall x, (x / 2 ^ 32 * 2 ^ 32 + v) mod 2 ^ 32 = v /\ (x / 2 ^ 32 * 2 ^ 32 + v) / 2 ^ 32 = x / 2 ^ 32) as Q1.
  { intros x. unfold inw in Hv. rewrite Z.add_comm, Z.mod_add, Z.div_add, Z.mod_small, (Z.div_small v) by lia. lia. }
  assert (forall x, (v * 2 ^ 32 + x mod 2 ^ 32) mod 2 ^ 32 = x mod 2 ^ 32 /\ (v * 2 ^ 32 + x mod 2 ^ 32) / 2 ^ 32 = v) as Q2.
  { intros x. rewrite Z.add_comm, Z.mod_add, Z.div_add, Z.mod_mod, (Z.div_small (x mod 2 ^ 32)) by (try apply Z.mod_pos_bound; lia). lia. }
  assert (forall k o, k_msip (update_mtip (with_cmp k o)) = k_msip k /\ k_mtime (update_mtip (with_cmp k o)) = k_mtime k) as Q3.
  { intros k0 o. destruct (update_same (with_cmp k0 o)) as (-> & _ & _ & _ & -> & _). split; reflexivity. }
  unfold reg_words in R, A. cbn [In] in R, A.
  repeat (destruct R as [<-|R]; [|]); [..|contradiction];
  (repeat (destruct A as [<-|A]; [|]); [..|contradiction]);
  cbn [Z.eqb Pos.eqb Z.add Pos.add Pos.succ Pos.add_carry a_msip a_mtimecmp a_mtime] in *; rewrite ?M1, ?M2, ?M3, ?M4, ?M5, ?L1, ?L2, ?L3, ?L4, ?L5, ?S1, ?S2, ?S3, ?S4, ?S5;
  try reflexivity; try apply Q1; try apply Q2.
  all: cbn [step]; unfold store, a_msip, a_mtimecmp, a_mtime; change (Z.land 16384 65535) with 16384; change (Z.land 16388 65535) with 16388;
   change (Z.land 49144 65535) with 49144; change (Z.land 49148 65535) with 49148; change (Z.land 0 65535) with 0; cbn [Z.eqb Pos.eqb]; unfold write; cbn [Z.eqb Pos.eqb];
   unfold write_cmp_low, write_cmp_high; rewrite ?(proj1 (Q3 _ _)), ?(proj2 (Q3 _ _)); reflexivity.
Qed.
Lemma msip_main p l v : inw 32 v -> k_line_s (run p (l ++ [Store a_msip 4 v])) = Z.odd v.
Proof. intros Hv. rewrite run_app. apply (store_words p l v Hv). Qed.
