(** Half to wider formats. *)
From Coq Require Import ZArith Bool List Lia.
From Verif Require Import Bits IeeeSpec FpSpec IntModel FpModel FpProofs FpCvt FpWiden.
Import ListNotations.
Local Open Scope Z_scope.

Lemma lor_add : forall a b k, 0 <= k -> 0 <= b < 2 ^ k -> Z.lor (a * 2 ^ k) b = a * 2 ^ k + b.
Proof.
  intros a b k Hk Hb. rewrite <- Z.shiftl_mul_pow2 by lia.
  rewrite <- Z.lxor_lor, <- Z.add_nocarry_lxor; [reflexivity | |];
    apply Z.bits_inj'; intros n Hn; rewrite Z.land_spec, Z.bits_0;
    (destruct (Z.ltb_spec n k);
     [rewrite Z.shiftl_spec_low by lia; reflexivity |
      rewrite (inw_testbit_high k b n) by (unfold inw; lia); apply andb_false_r]).
Qed.

Lemma assemble : forall g (s : bool) e m k, okf g -> 0 <= e < 2 ^ ew g -> 0 <= k <= sw g -> 0 <= m < 2 ^ k ->
  Z.lor (Z.lor (wrap (width g) (Z.shiftl (Z.b2z s) (width g - 1))) (wrap (width g) (Z.shiftl e (sw g))))
        (wrap (width g) (Z.shiftl m (sw g - k)))
  = with_sign g s (e * 2 ^ sw g + m * 2 ^ (sw g - k)).
Proof.
  intros g s e m k [He Hs] HE Hk Hm.
  assert (WD : width g = 1 + ew g + sw g) by reflexivity. set (W := width g) in *. clearbody W.
  assert (P1 : 0 < 2 ^ sw g) by (apply pow2_pos; lia). assert (P2 : 0 < 2 ^ ew g) by (apply pow2_pos; lia).
  assert (P3 : 0 < 2 ^ (sw g - k)) by (apply pow2_pos; lia).
  assert (W1 : 2 ^ (W - 1) = 2 ^ ew g * 2 ^ sw g) by (rewrite <- Z.pow_add_r by lia; f_equal; lia).
  assert (W2 : 2 ^ W = 2 * 2 ^ (W - 1)) by (rewrite <- Z.pow_succ_r by lia; f_equal; lia).
  assert (KS : 2 ^ k * 2 ^ (sw g - k) = 2 ^ sw g) by (rewrite <- Z.pow_add_r by lia; f_equal; lia).
  assert (B1 : 0 <= e * 2 ^ sw g < 2 ^ (W - 1)) by (rewrite W1; clear - HE P1 P2; nia).
  assert (B2 : 0 <= m * 2 ^ (sw g - k) < 2 ^ sw g) by (rewrite <- KS; clear - Hm P3; nia).
  assert (B3 : 2 ^ sw g <= 2 ^ (W - 1)) by (rewrite W1; clear - P1 P2; nia).
  assert (BS : 0 <= Z.b2z s <= 1) by (destruct s; cbn; lia).
  rewrite !Z.shiftl_mul_pow2 by lia.
  rewrite !wrap_id by (unfold inw; clear - B1 B2 B3 W2 BS P1; nia).
  rewrite (lor_add (Z.b2z s)) by lia. rewrite W1, Z.mul_assoc, <- Z.mul_add_distr_r.
  rewrite lor_add by lia. unfold with_sign. change (width g) with (1 + ew g + sw g). rewrite <- WD, W1. ring.
Qed.

Lemma widen_number : forall g a e m, g = single \/ g = double -> is_nan half a = false -> is_inf half a = false ->
  0 < e < 2 ^ ew g - 1 -> 0 <= m < 1024 ->
  (1024 + m) * 2 ^ (sw g - 10) * 2 ^ (e - 1) = magnitude half a * 2 ^ (quantum g - quantum half) ->
  widened half g a (with_sign g (sign half a) (e * 2 ^ sw g + m * 2 ^ (sw g - 10))) 0.
Proof.
  intros g a e m Hg N I He Hm V.
  assert (Ok : okf g) by (destruct Hg as [-> | ->]; split; cbn; lia).
  assert (SW : 10 <= sw g) by (destruct Hg as [-> | ->]; cbn; lia).
  assert (KS : 1024 * 2 ^ (sw g - 10) = 2 ^ sw g) by (destruct Hg as [-> | ->]; reflexivity).
  assert (P3 : 0 < 2 ^ (sw g - 10)) by (apply pow2_pos; lia).
  destruct (fields g (sign half a) e (m * 2 ^ (sw g - 10)) Ok) as (F1 & F2 & F3 & F4);
    [clear - He; lia | rewrite <- KS; clear - Hm P3; nia |].
  set (r := with_sign _ _ _) in *. clearbody r.
  unfold widened, is_snan. rewrite N. split; [reflexivity |]. split; [exact F4 |]. split; [exact F1 |].
  assert (SP : special g r = false) by (unfold special; rewrite F2; apply Z.eqb_neq; clear - He; lia).
  split; [rewrite I; unfold is_inf; rewrite SP; reflexivity |]. split; [unfold is_nan; rewrite SP; reflexivity |].
  intros _. unfold units. rewrite F1. unfold magnitude at 1 2. rewrite F2, F3.
  replace (e =? 0) with false by (symmetry; apply Z.eqb_neq; clear - He; lia).
  assert (K : (2 ^ sw g + m * 2 ^ (sw g - 10)) * 2 ^ (e - 1) = magnitude half a * 2 ^ (quantum g - quantum half))
    by (rewrite <- V, <- KS; ring).
  rewrite K. destruct (sign half a); ring.
Qed.

Lemma widen_correct : forall g a, g = single \/ g = double -> 0 <= a < 65536 ->
  widened half g a (fst (from_half g a)) (snd (from_half g a)).
Proof.
  intros g a Hg Ha.
  assert (OkH : okf half) by (split; cbn; lia).
  assert (Ok : okf g) by (destruct Hg as [-> | ->]; split; cbn; lia).
  assert (In_g : In g formats) by (destruct Hg as [-> | ->]; [right; left | right; right; left]; reflexivity).
  destruct (split_sign half a OkH Ha) as [SP _]. change (width half - 1) with 15 in SP.
  assert (EF : a mod 2 ^ 15 = expo half a * 1024 + frac half a).
  { unfold expo, frac. cbn [ew sw half]. change 1024 with (2 ^ 10). change (2 ^ 15) with (2 ^ 10 * 2 ^ 5).
    rewrite Z.rem_mul_r by lia. ring. }
  rewrite EF in SP.
  assert (ER : 0 <= expo half a < 32) by (unfold expo; cbn [ew sw half]; apply Z.mod_pos_bound; lia).
  assert (FR : 0 <= frac half a < 1024) by (unfold frac; cbn [ew sw half]; apply (Z.mod_pos_bound a (2 ^ 10)); lia).
  unfold from_half. rewrite (IsNaN_eq half a OkH), (IsSNaN_eq half a OkH), (IsInf_eq half a OkH), (canonical_eq g In_g).
  destruct (is_nan half a) eqn:N; cbn [fst snd].
  { unfold widened. rewrite N. split; [reflexivity |]. split; [| reflexivity].
    destruct Hg as [-> | ->]; split; vm_compute; congruence. }
  destruct (is_inf half a) eqn:I; cbn [fst snd].
  { unfold is_inf, special in I. apply andb_true_iff in I. destruct I as [I1 I2]. apply Z.eqb_eq in I1, I2.
    rewrite I1, I2 in SP. clear - Hg SP. destruct (sign half a); rewrite SP; destruct Hg as [-> | ->];
      (split; [reflexivity |]); (split; [split; vm_compute; congruence |]); do 3 (split; [reflexivity |]); discriminate. }
  destruct ((a =? 0) || (a =? Z.shiftl 1 (width half - 1))) eqn:Z0; cbn [fst snd].
  { apply orb_true_iff in Z0. rewrite !Z.eqb_eq in Z0. clear - Hg Z0.
    destruct Z0 as [-> | ->]; destruct Hg as [-> | ->];
      (split; [reflexivity |]); (split; [split; vm_compute; congruence |]); do 3 (split; [reflexivity |]); reflexivity. }
  assert (NZ : ~ (expo half a = 0 /\ frac half a = 0)).
  { intros [E0 F0]. rewrite E0, F0 in SP. apply orb_false_iff in Z0. rewrite !Z.eqb_neq in Z0. clear - SP Z0.
    destruct Z0 as [Z1 Z2]. destruct (sign half a); [apply Z2 | apply Z1]; rewrite SP; reflexivity. }
  assert (E31 : expo half a <> 31).
  { intro E. clear - E N I. unfold is_nan, is_inf, special in *. change (2 ^ ew half - 1) with 31 in *. rewrite E in *. cbn in *.
    destruct (frac half a =? 0); discriminate. }
  unfold SignBit, kExpMask, kSigMask. fold (sign half a). rewrite land_field, land_mask by (cbn; lia).
  fold (expo half a). rewrite Z.shiftr_shiftl_l, Z.sub_diag, Z.shiftl_0_r by (cbn; lia).
  fold (frac half a). clear Z0 SP EF. set (E := expo half a) in *. set (F := frac half a) in *.
  assert (MAG : magnitude half a = if E =? 0 then F else (1024 + F) * 2 ^ (E - 1)) by reflexivity.
  assert (BG : bias g - 15 = quantum g - quantum half - (sw g - 10))
    by (destruct Hg as [-> | ->]; reflexivity).
  assert (BR : 100 <= bias g /\ 2 * bias g + 1 = 2 ^ ew g - 1 /\ bias g < 1024 /\ 10 <= sw g) by (destruct Hg as [-> | ->]; vm_compute; repeat split; congruence).
  assert (WB : inw (width g) 4096 /\ 0 <= width g) by (destruct Hg as [-> | ->]; vm_compute; repeat split; congruence).
  destruct BR as (BR1 & BR2 & BR3 & BR4). destruct WB as [WB W0]. unfold inw in WB.
  assert (FIT : forall x, 0 <= x < 4096 -> wrap (width g) x = x) by (intros x Hx; apply wrap_id; unfold inw; clear - Hx WB; lia).
  change (bias half) with 15. change (sw half) with 10 in *. clearbody E F.
  destruct (Z.eqb_spec E 0) as [E0 | E0]; cbn [andb].
  - replace (F =? 0) with false by (symmetry; apply Z.eqb_neq; intro; apply NZ; split; assumption). cbn [negb fst snd].
    assert (FP : 0 < F) by lia. pose proof (Z.log2_spec F FP) as [L1 L2]. pose proof (Z.log2_nonneg F) as LN.
    assert (LB : Z.log2 F < 10) by (apply Z.log2_lt_pow2; [exact FP | exact (proj2 FR)]).
    set (l := Z.log2 F) in *. clearbody l.
    rewrite <- wrap_sub_l, wrap_add_l, wrap_sub_l.
    replace (1 - (1 + 10 - (l + 1)) + bias g - 15) with (l - 24 + bias g) by ring.
    rewrite (FIT (l - 24 + bias g)) by lia.
    replace (1 + 10 - (l + 1)) with (10 - l) by ring.
    assert (SH : 1024 <= F * 2 ^ (10 - l) < 2048).
    { assert (PL : 0 < 2 ^ (10 - l)) by (apply pow2_pos; lia).
      assert (Q : 2 ^ l * 2 ^ (10 - l) = 1024) by (rewrite <- Z.pow_add_r by lia; change 1024 with (2 ^ 10); f_equal; lia).
      rewrite Z.pow_succ_r in L2 by lia. clear - L1 L2 Q PL. nia. }
    rewrite (Z.shiftl_mul_pow2 F) by lia. rewrite (FIT (F * 2 ^ (10 - l))) by lia.
    rewrite (land_mask _ 10) by lia.
    replace (F * 2 ^ (10 - l) mod 2 ^ 10) with (F * 2 ^ (10 - l) - 1024)
      by (apply Z.mod_unique with 1; [left; change (2 ^ 10) with 1024; lia | change (2 ^ 10) with 1024; lia]).
    rewrite assemble by (try assumption; change (2 ^ 10) with 1024; lia).
    apply widen_number; try assumption; try lia. rewrite MAG.
    replace (1024 + (F * 2 ^ (10 - l) - 1024)) with (F * 2 ^ (10 - l)) by ring.
    rewrite <- !Z.mul_assoc, <- !Z.pow_add_r by lia. f_equal. f_equal. lia.
  - cbn [fst snd]. rewrite (FIT (E + bias g - 15)) by lia.
    rewrite assemble by (try assumption; change (2 ^ 10) with 1024; lia).
    apply widen_number; try assumption; try lia. rewrite MAG.
    rewrite <- !Z.mul_assoc, <- !Z.pow_add_r by lia. f_equal. f_equal. lia.
Qed.
