(** Machine words as [Z] with explicit wrap-around, and bit-level reasoning.
    This file models no particular source file: it fixes the meaning of the C++
    fixed width integer types used everywhere in /repo/riscv
    (uintN_t = residues mod 2^N, intN_t = two's complement). *)
From Coq Require Import ZArith Lia Bool List.
From Coq Require Export ZifyBool ZifyNat ZifyN.
Import ListNotations.
Local Open Scope Z_scope.

(** [wrap w x]: conversion of [x] to an unsigned [w]-bit integer. *)
Definition wrap (w x : Z) : Z := x mod 2 ^ w.

(** [sgn w x]: conversion of [x] to a signed [w]-bit integer (two's complement). *)
Definition sgn (w x : Z) : Z :=
  if wrap w x <? 2 ^ (w - 1) then wrap w x else wrap w x - 2 ^ w.

(** [wnot w x]: the C++ operator [~] on an unsigned [w]-bit value. *)
Definition wnot (w x : Z) : Z := wrap w (Z.lnot x).

(** [inw w x]: [x] is representable as an unsigned [w]-bit integer. *)
Definition inw (w x : Z) : Prop := 0 <= x < 2 ^ w.

Lemma pow2_pos w : 0 <= w -> 0 < 2 ^ w.
Proof. intros; apply Z.pow_pos_nonneg; lia. Qed.

Lemma wrap_range w x : 0 <= w -> inw w (wrap w x).
Proof. intros; unfold inw, wrap; apply Z.mod_pos_bound, pow2_pos; lia. Qed.

Lemma wrap_id w x : inw w x -> wrap w x = x.
Proof. intros; unfold wrap; apply Z.mod_small; exact H. Qed.

Lemma wrap_wrap w x : 0 <= w -> wrap w (wrap w x) = wrap w x.
Proof. intros; apply wrap_id, wrap_range; lia. Qed.

Lemma wrap_wrap_le w v x : 0 <= w <= v -> wrap w (wrap v x) = wrap w x.
Proof.
  intros; unfold wrap.
  replace (2 ^ v) with (2 ^ w * 2 ^ (v - w)) by (rewrite <- Z.pow_add_r by lia; f_equal; lia).
  pose proof (pow2_pos w ltac:(lia)). pose proof (pow2_pos (v - w) ltac:(lia)).
  rewrite Z.rem_mul_r by lia.
  rewrite Z.mul_comm, Z_mod_plus_full. apply Z.mod_mod; lia.
Qed.

Lemma wrap_add_l w a b : wrap w (wrap w a + b) = wrap w (a + b).
Proof. unfold wrap. apply Zplus_mod_idemp_l. Qed.
Lemma wrap_add_r w a b : wrap w (a + wrap w b) = wrap w (a + b).
Proof. unfold wrap. apply Zplus_mod_idemp_r. Qed.
Lemma wrap_sub_l w a b : wrap w (wrap w a - b) = wrap w (a - b).
Proof. unfold wrap. apply Zminus_mod_idemp_l. Qed.
Lemma wrap_sub_r w a b : wrap w (a - wrap w b) = wrap w (a - b).
Proof. unfold wrap. apply Zminus_mod_idemp_r. Qed.
Lemma wrap_mul_l w a b : wrap w (wrap w a * b) = wrap w (a * b).
Proof. unfold wrap. apply Zmult_mod_idemp_l. Qed.
Lemma wrap_mul_r w a b : wrap w (a * wrap w b) = wrap w (a * b).
Proof. unfold wrap. apply Zmult_mod_idemp_r. Qed.

Lemma wrap_testbit w x i : 0 <= w -> Z.testbit (wrap w x) i = (i <? w) && Z.testbit x i.
Proof.
  intros Hw. unfold wrap.
  destruct (Z.ltb_spec i w); simpl.
  - destruct (Z.ltb_spec i 0). { rewrite !Z.testbit_neg_r by lia; reflexivity. }
    apply Z.mod_pow2_bits_low; lia.
  - apply Z.mod_pow2_bits_high; lia.
Qed.

Lemma wrap_land_ones w x : 0 <= w -> wrap w x = Z.land x (Z.ones w).
Proof. intros; unfold wrap; rewrite Z.land_ones by lia; reflexivity. Qed.

Lemma wnot_testbit w x i : 0 <= w -> 0 <= i ->
  Z.testbit (wnot w x) i = (i <? w) && negb (Z.testbit x i).
Proof. intros; unfold wnot; rewrite wrap_testbit, Z.lnot_spec by lia; reflexivity. Qed.

Lemma inw_testbit_high w x i : inw w x -> 0 <= w <= i -> Z.testbit x i = false.
Proof.
  intros [H0 H1] Hi. rewrite <- (wrap_id w x) by (split; assumption).
  rewrite wrap_testbit by lia. destruct (Z.ltb_spec i w); [lia|reflexivity].
Qed.

Lemma inw_of_testbit w x : 0 <= w -> 0 <= x ->
  (forall i, w <= i -> Z.testbit x i = false) -> inw w x.
Proof.
  intros Hw Hx H.
  assert (wrap w x = x) as E.
  { apply Z.bits_inj'; intros i Hi. rewrite wrap_testbit by lia.
    destruct (Z.ltb_spec i w); simpl; [reflexivity|]. rewrite H; [reflexivity|lia]. }
  rewrite <- E; apply wrap_range; lia.
Qed.

Lemma wrap_eq_bits w x y : 0 <= w ->
  (forall i, 0 <= i < w -> Z.testbit x i = Z.testbit y i) -> wrap w x = wrap w y.
Proof.
  intros Hw H. apply Z.bits_inj'; intros i Hi. rewrite !wrap_testbit by lia.
  destruct (Z.ltb_spec i w); simpl; [apply H; lia|reflexivity].
Qed.

Lemma inw_eq_bits w x y : 0 <= w -> inw w x -> inw w y ->
  (forall i, 0 <= i < w -> Z.testbit x i = Z.testbit y i) -> x = y.
Proof.
  intros. rewrite <- (wrap_id w x), <- (wrap_id w y) by assumption.
  apply wrap_eq_bits; assumption.
Qed.

Lemma inw_land_l w x y : 0 <= w -> inw w x -> inw w (Z.land x y).
Proof.
  intros Hw Hx. apply inw_of_testbit; [lia| |].
  - apply Z.land_nonneg; left; apply Hx.
  - intros; rewrite Z.land_spec, (inw_testbit_high w x) by (assumption || lia); reflexivity.
Qed.
Lemma inw_land_r w x y : 0 <= w -> inw w y -> inw w (Z.land x y).
Proof. intros; rewrite Z.land_comm; apply inw_land_l; assumption. Qed.
Lemma inw_lor w x y : 0 <= w -> inw w x -> inw w y -> inw w (Z.lor x y).
Proof.
  intros Hw Hx Hy. apply inw_of_testbit; [lia| |].
  - apply Z.lor_nonneg; split; [apply Hx|apply Hy].
  - intros; rewrite Z.lor_spec, (inw_testbit_high w x), (inw_testbit_high w y)
      by (assumption || lia); reflexivity.
Qed.
Lemma inw_lxor w x y : 0 <= w -> inw w x -> inw w y -> inw w (Z.lxor x y).
Proof.
  intros Hw Hx Hy. apply inw_of_testbit; [lia| |].
  - apply Z.lxor_nonneg; destruct Hx, Hy; split; lia.
  - intros; rewrite Z.lxor_spec, (inw_testbit_high w x), (inw_testbit_high w y)
      by (assumption || lia); reflexivity.
Qed.
Lemma inw_wnot w x : 0 <= w -> inw w (wnot w x).
Proof. intros; apply wrap_range; assumption. Qed.
Lemma inw_weaken w v x : 0 <= w <= v -> inw w x -> inw v x.
Proof. intros H [H0 H1]; split; [lia|]. eapply Z.lt_le_trans; [exact H1|apply Z.pow_le_mono_r; lia]. Qed.
Lemma inw_shiftr w x k : 0 <= w -> 0 <= k -> inw w x -> inw w (Z.shiftr x k).
Proof.
  intros Hw Hk [H0 H1]; split; [apply Z.shiftr_nonneg; lia|].
  rewrite Z.shiftr_div_pow2 by lia. eapply Z.le_lt_trans; [|exact H1].
  apply Z.div_le_upper_bound; [apply pow2_pos; lia|].
  pose proof (pow2_pos k Hk). nia.
Qed.

Lemma sgn_range w x : 1 <= w -> - 2 ^ (w - 1) <= sgn w x < 2 ^ (w - 1).
Proof.
  intros Hw. unfold sgn. pose proof (wrap_range w x ltac:(lia)) as [H0 H1].
  assert (2 ^ w = 2 * 2 ^ (w - 1)) as E by (rewrite <- Z.pow_succ_r by lia; f_equal; lia).
  destruct (Z.ltb_spec (wrap w x) (2 ^ (w - 1))); lia.
Qed.

Lemma wrap_sgn w x : 1 <= w -> wrap w (sgn w x) = wrap w x.
Proof.
  intros Hw. unfold sgn. destruct (_ <? _); [apply wrap_wrap; lia|].
  unfold wrap. rewrite <- (Z_mod_plus_full (x mod 2 ^ w - 2 ^ w) 1 (2 ^ w)).
  replace (x mod 2 ^ w - 2 ^ w + 1 * 2 ^ w) with (x mod 2 ^ w) by lia.
  apply Z.mod_mod. pose proof (pow2_pos w ltac:(lia)); lia.
Qed.

Lemma sgn_wrap w x : 1 <= w -> sgn w (wrap w x) = sgn w x.
Proof. intros; unfold sgn; rewrite wrap_wrap by lia; reflexivity. Qed.

Lemma sgn_id w x : 1 <= w -> - 2 ^ (w - 1) <= x < 2 ^ (w - 1) -> sgn w x = x.
Proof.
  intros Hw Hx. unfold sgn, wrap.
  assert (2 ^ w = 2 * 2 ^ (w - 1)) as E by (rewrite <- Z.pow_succ_r by lia; f_equal; lia).
  destruct (Z.leb_spec 0 x).
  - rewrite Z.mod_small by lia. destruct (Z.ltb_spec x (2 ^ (w - 1))); lia.
  - assert (x mod 2 ^ w = x + 2 ^ w) as ->.
    { symmetry; apply (Z.mod_unique x (2 ^ w) (-1)); [left; lia|lia]. }
    destruct (Z.ltb_spec (x + 2 ^ w) (2 ^ (w - 1))); lia.
Qed.

(** The sign-extended reading has bit [i] of the word below [w] and the top bit above. *)
Lemma sgn_testbit w x i : 1 <= w -> 0 <= i ->
  Z.testbit (sgn w x) i = Z.testbit x (if i <? w then i else w - 1).
Proof.
  intros Hw Hi.
  destruct (Z.ltb_spec i w).
  - rewrite <- (Z.mod_pow2_bits_low (sgn w x) w i) by lia.
    change (sgn w x mod 2 ^ w) with (wrap w (sgn w x)).
    rewrite wrap_sgn, wrap_testbit by lia. destruct (Z.ltb_spec i w); [reflexivity|lia].
  - unfold sgn. pose proof (wrap_range w x ltac:(lia)) as [H0 H1].
    assert (2 ^ w = 2 * 2 ^ (w - 1)) as E by (rewrite <- Z.pow_succ_r by lia; f_equal; lia).
    assert (Z.testbit x (w - 1) = (2 ^ (w - 1) <=? wrap w x)) as T.
    { rewrite <- (Z.mod_pow2_bits_low x w (w - 1)) by lia.
      fold (wrap w x). rewrite Z.testbit_eqb by lia.
      destruct (Z.leb_spec (2 ^ (w - 1)) (wrap w x)).
      - replace (wrap w x / 2 ^ (w - 1)) with 1; [reflexivity|].
        apply Z.div_unique with (wrap w x - 2 ^ (w - 1)); lia.
      - rewrite Z.div_small by lia; reflexivity. }
    rewrite T. destruct (Z.ltb_spec (wrap w x) (2 ^ (w - 1))).
    + destruct (Z.leb_spec (2 ^ (w - 1)) (wrap w x)); [lia|].
      apply (inw_testbit_high w); [split; lia|lia].
    + destruct (Z.leb_spec (2 ^ (w - 1)) (wrap w x)); [|lia].
      assert (sgn w x = wrap w x - 2 ^ w) by (unfold sgn; destruct (Z.ltb_spec (wrap w x) (2 ^ (w - 1))); lia).
      replace (wrap w x - 2 ^ w) with (Z.lnot (2 ^ w - 1 - wrap w x)) by (unfold Z.lnot; lia).
      rewrite Z.lnot_spec by lia. rewrite (inw_testbit_high w); [reflexivity|split; lia|lia].
Qed.

(** ** A small tactic for bitwise equalities. *)
Ltac bnorm :=
  repeat match goal with
  | |- context [Z.testbit (Z.land ?a ?b) ?i] => rewrite (Z.land_spec a b i)
  | |- context [Z.testbit (Z.lor ?a ?b) ?i] => rewrite (Z.lor_spec a b i)
  | |- context [Z.testbit (Z.lxor ?a ?b) ?i] => rewrite (Z.lxor_spec a b i)
  | |- context [Z.testbit (Z.ldiff ?a ?b) ?i] => rewrite (Z.ldiff_spec a b i)
  | |- context [Z.testbit 0 ?i] => rewrite (Z.bits_0 i)
  | |- context [Z.testbit (Z.lnot ?a) ?i] => rewrite (Z.lnot_spec a i) by lia
  | |- context [Z.testbit (wnot ?w ?a) ?i] => rewrite (wnot_testbit w a i) by lia
  | |- context [Z.testbit (wrap ?w ?a) ?i] => rewrite (wrap_testbit w a i) by lia
  | |- context [Z.testbit (Z.shiftr ?a ?k) ?i] => rewrite (Z.shiftr_spec a k i) by lia
  | |- context [Z.testbit (Z.shiftl ?a ?k) ?i] => rewrite (Z.shiftl_spec a k i) by lia
  end.

Ltac bcases :=
  repeat match goal with
  | |- context [Z.testbit ?x ?i] => is_var x; destruct (Z.testbit x i)
  end; try reflexivity.

(** [forallb] over the index range [0, n) — used to lift finite sweeps. *)
Fixpoint zrange_from (start : Z) (n : nat) : list Z :=
  match n with O => [] | S m => start :: zrange_from (start + 1) m end.
Definition zrange (n : Z) : list Z := zrange_from 0 (Z.to_nat n).

Lemma zrange_from_in s n x : In x (zrange_from s n) <-> s <= x < s + Z.of_nat n.
Proof.
  revert s; induction n as [|n IH]; intros s; cbn [zrange_from].
  - simpl; lia.
  - simpl. rewrite IH. lia.
Qed.
Lemma zrange_in n x : In x (zrange n) <-> 0 <= x < n.
Proof. unfold zrange. rewrite zrange_from_in. destruct (Z.leb_spec 0 n); lia. Qed.

Lemma forall_zrange (P : Z -> bool) n :
  forallb P (zrange n) = true -> forall x, 0 <= x < n -> P x = true.
Proof. intros H x Hx. rewrite forallb_forall in H. apply H, zrange_in, Hx. Qed.

(** Split syntactic conjunctions only (keeps [inw] folded). *)
Ltac ssplit := repeat match goal with |- _ /\ _ => split end.
