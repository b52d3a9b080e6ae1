(** Byte memory and little-endian access, used by the models of loads and stores.
    The memory object itself is mpact-sim's (not in /repo): see the trusted base. *)
From Coq Require Import ZArith Bool List Lia.
From Verif Require Import Bits.
Import ListNotations.
Local Open Scope Z_scope.

Definition mem := Z -> Z.
Definition byte_mem (m : mem) : Prop := forall x, 0 <= m x < 256.
Fixpoint load_le (m : mem) (a : Z) (n : nat) : Z :=
  match n with O => 0 | S n' => m a + 256 * load_le m (a + 1) n' end.
Definition store_le (m : mem) (a : Z) (n : nat) (v : Z) : mem :=
  fun x => if (a <=? x) && (x <? a + Z.of_nat n) then v / 2 ^ (8 * (x - a)) mod 256 else m x.

Lemma load_le_ext m1 m2 a n : (forall x, a <= x < a + Z.of_nat n -> m1 x = m2 x) -> load_le m1 a n = load_le m2 a n.
Proof.
  revert a; induction n as [|n IH]; intros a H; cbn [load_le]; [reflexivity|].
  rewrite (H a) by lia. rewrite (IH (a + 1)); [reflexivity|]. intros; apply H; lia.
Qed.
Lemma load_le_range m a n : byte_mem m -> 0 <= load_le m a n < 2 ^ (8 * Z.of_nat n).
Proof.
  intros Hm; revert a; induction n as [|n IH]; intros a; cbn [load_le]; [cbn; lia|].
  specialize (IH (a + 1)). specialize (Hm a).
  replace (8 * Z.of_nat (S n)) with (8 + 8 * Z.of_nat n) by lia. rewrite Z.pow_add_r by lia.
  change (2 ^ 8) with 256. nia.
Qed.
Lemma load_le_bit m a n i : byte_mem m -> 0 <= i < 8 * Z.of_nat n ->
  Z.testbit (load_le m a n) i = Z.testbit (m (a + i / 8)) (i mod 8).
Proof.
  intros Hm; revert a i; induction n as [|n IH]; intros a i Hi; [lia|]. cbn [load_le].
  pose proof (Hm a) as Ha.
  assert (Z.land (m a) (Z.shiftl (load_le m (a + 1) n) 8) = 0) as L.
  { apply Z.bits_inj'; intros j Hj. rewrite Z.land_spec, Z.bits_0, Z.shiftl_spec by lia.
    destruct (Z.ltb_spec j 8).
    - rewrite (Z.testbit_neg_r _ (j - 8)) by lia. apply andb_false_r.
    - rewrite (inw_testbit_high 8 (m a) j) by (unfold inw; lia). reflexivity. }
  assert (m a + 256 * load_le m (a + 1) n = Z.lor (m a) (Z.shiftl (load_le m (a + 1) n) 8)) as ->.
  { rewrite <- Z.lxor_lor by exact L. rewrite <- Z.add_nocarry_lxor by exact L.
    rewrite Z.shiftl_mul_pow2 by lia. change (2 ^ 8) with 256. lia. }
  rewrite Z.lor_spec, Z.shiftl_spec by lia.
  destruct (Z.ltb_spec i 8).
  - rewrite (Z.testbit_neg_r _ (i - 8)) by lia. rewrite orb_false_r, Z.div_small, Z.mod_small by lia.
    rewrite Z.add_0_r. reflexivity.
  - rewrite (inw_testbit_high 8 (m a) i) by (unfold inw; lia). cbn [orb]. rewrite IH by lia.
    assert (i / 8 = (i - 8) / 8 + 1 /\ i mod 8 = (i - 8) mod 8) as [-> ->].
    { replace i with (i - 8 + 1 * 8) by lia. rewrite Z.div_add, Z.mod_add by lia.
      replace (i - 8 + 1 * 8 - 8) with (i - 8) by lia. split; reflexivity. }
    do 2 f_equal. lia.
Qed.
Lemma store_le_same m a n v x : a <= x < a + Z.of_nat n -> store_le m a n v x = v / 2 ^ (8 * (x - a)) mod 256.
Proof. intros H. unfold store_le. destruct (Z.leb_spec a x), (Z.ltb_spec x (a + Z.of_nat n)); try lia; reflexivity. Qed.
Lemma store_le_other m a n v x : ~ (a <= x < a + Z.of_nat n) -> store_le m a n v x = m x.
Proof. intros H. unfold store_le. destruct (Z.leb_spec a x), (Z.ltb_spec x (a + Z.of_nat n)); try lia; reflexivity. Qed.
Lemma byte_mem_store m a n v : byte_mem m -> byte_mem (store_le m a n v).
Proof. intros H x. unfold store_le. destruct (_ && _); [apply Z.mod_pos_bound; lia|apply H]. Qed.
Lemma load_store_same m a n v : load_le (store_le m a n v) a n = v mod 2 ^ (8 * Z.of_nat n).
Proof.
  assert (forall k b, (k <= n)%nat -> b = a + Z.of_nat (n - k) ->
    load_le (store_le m a n v) b k = v / 2 ^ (8 * (b - a)) mod 2 ^ (8 * Z.of_nat k)) as H.
  { induction k as [|k IH]; intros b Hk Hb; cbn [load_le].
    - change (8 * Z.of_nat 0) with 0. rewrite Z.pow_0_r, Z.mod_1_r. reflexivity.
    - rewrite (IH (b + 1)) by lia. rewrite store_le_same by lia.
      replace (8 * (b + 1 - a)) with (8 * (b - a) + 8) by lia.
      rewrite Z.pow_add_r, <- Z.div_div by (try apply pow2_pos; try lia; apply Z.pow_nonzero; lia).
      replace (8 * Z.of_nat (S k)) with (8 + 8 * Z.of_nat k) by lia. rewrite Z.pow_add_r by lia.
      change (2 ^ 8) with 256. rewrite Z.rem_mul_r by (try apply pow2_pos; lia). reflexivity. }
  rewrite (H n a) by lia. rewrite Z.sub_diag, Z.mul_0_r, Z.pow_0_r, Z.div_1_r. reflexivity.
Qed.
Lemma load_store_other m a n v b k : b + Z.of_nat k <= a \/ a + Z.of_nat n <= b ->
  load_le (store_le m a n v) b k = load_le m b k.
Proof. intros H. apply load_le_ext. intros x Hx. apply store_le_other. lia. Qed.
Lemma store_load_back m a n x : byte_mem m -> store_le m a n (load_le m a n) x = m x.
Proof.
  intros Hm. destruct (Z.leb_spec a x), (Z.ltb_spec x (a + Z.of_nat n));
    try (apply store_le_other; lia). rewrite store_le_same by lia.
  change 256 with (2 ^ 8). specialize (Hm x) as Hx.
  apply (inw_eq_bits 8); [lia|apply (wrap_range 8); lia|unfold inw; lia|]. intros i Hi.
  rewrite Z.mod_pow2_bits_low, Z.div_pow2_bits by lia. rewrite load_le_bit by (assumption || lia).
  replace (i + 8 * (x - a)) with (i + (x - a) * 8) by lia. rewrite Z.div_add, Z.mod_add, Z.div_small, Z.mod_small by lia.
  do 2 f_equal. lia.
Qed.
