(** ConvertToHalfFP rounds correctly. *)
From Coq Require Import ZArith Bool List Lia.
From Verif Require Import Bits IeeeSpec FpSpec IntModel FpModel FpProofs FpCvt FpWiden FpHalf FarithSpec FarithModel FarithProofs FarithExec
  RoundProofs RoundTwice HalfModel.
Import ListNotations.
Local Open Scope Z_scope.

Lemma ok_half : okf half.
Proof. split; cbn; lia. Qed.

(** What is used of the two wider formats. *)
Definition dd (f : fmt) : Z := sw f - 10.
Definition bd (f : fmt) : Z := bias f - 15.
Lemma sd_facts : forall f, sd f -> okf f /\ 13 <= dd f <= 42 /\ sw f = dd f + 10 /\ 112 <= bd f <= 1008 /\ bias f = bd f + 15 /\
  2 ^ ew f = 2 * bias f + 2 /\ quantum f - quantum half = bd f + dd f /\ 3 * sw f < bias f /\ 0 < 2 ^ sw f /\ width f = 1 + ew f + sw f /\ 8 <= ew f <= 11 /\ 0 < 2 ^ width f.
Proof. intros f [-> | ->]; unfold okf; repeat split; try reflexivity; try (vm_compute; congruence). Qed.

(** A pattern with a small exponent stands for itself. *)
Lemma val_small : forall f k, okf f -> 0 <= k <= 2 ^ (sw f + 1) -> val f k = k.
Proof.
  intros f k Ok Hk. replace k with (0 * 2 ^ sw f + k) at 1 by ring. rewrite val_at; [rewrite Z.pow_0_r; ring | exact Ok | lia | exact Hk | left; reflexivity].
Qed.

(** A pattern below infinity is a finite number. *)
Lemma pattern_facts : forall f s m, okf f -> 0 <= m < top f -> sign f (with_sign f s m) = s /\ special f (with_sign f s m) = false /\
  magnitude f (with_sign f s m) = val f m /\ expo f (with_sign f s m) = m / 2 ^ sw f /\ 0 <= with_sign f s m < 2 ^ width f /\
  is_zero f (with_sign f s m) = (m =? 0).
Proof.
  intros f s m Ok Hm. pose proof Ok as [He Hs]. destruct (top_range f Ok) as (T1 & T2 & T3).
  assert (SP : 0 < 2 ^ sw f) by (apply pow2_pos; lia). assert (EP : 0 < 2 ^ ew f) by (apply pow2_pos; lia).
  pose proof (Z.div_mod m (2 ^ sw f) ltac:(lia)) as DM. pose proof (Z.mod_pos_bound m _ SP) as M.
  assert (Q : 0 <= m / 2 ^ sw f < 2 ^ ew f - 1) by (unfold top in Hm; clear - Hm SP DM M; split; [apply Z.div_pos; lia | apply Z.div_lt_upper_bound; lia]).
  assert (Q' : 0 <= m / 2 ^ sw f < 2 ^ ew f) by lia.
  destruct (fields f s _ _ Ok Q' M) as (F1 & F2 & F3 & F4). rewrite (Z.mul_comm (m / _)), <- DM in F1, F2, F3, F4.
  split; [exact F1 |]. split; [unfold special; rewrite F2; apply Z.eqb_neq; lia |]. split; [apply val_magnitude; [exact Ok | lia] |].
  split; [exact F2 |]. split; [exact F4 |]. unfold is_zero. rewrite F2, F3.
  destruct (Z.eqb_spec m 0) as [-> | N]; [rewrite Z.div_0_l, Z.mod_0_l by lia; reflexivity |].
  destruct (Z.eqb_spec (m / 2 ^ sw f) 0) as [A |]; [| reflexivity]. destruct (Z.eqb_spec (m mod 2 ^ sw f) 0) as [B |]; [| reflexivity]. exfalso. rewrite A, B in DM. lia.
Qed.
Lemma finite_not : forall f x, special f x = false -> is_nan f x = false /\ is_inf f x = false.
Proof. intros f x H. unfold is_nan, is_inf. rewrite H. split; reflexivity. Qed.

(** N / 2^t rounded to an integer. *)
Definition quo (rm : Z) (s : bool) (N t : Z) : Z :=
  let k := N / 2 ^ t in if goes_up rm s k (k + 1) (2 ^ t) N (Z.odd k) then k + 1 else k.

(** The division. *)
Lemma shift_div : forall H f rm s N e, host_ok H -> sd f -> 0 <= rm <= 3 -> 2 ^ sw f <= N < 2 ^ (sw f + 1) -> bias f < e < 2 ^ ew f - 1 ->
  fst (h_div H f rm (with_sign f s N) (e * 2 ^ sw f)) = with_sign f s (quo rm s N (e - bias f)) /\
  0 <= quo rm s N (e - bias f) <= 2 ^ sw f.
Proof.
  intros H f rm s N e HO Hf Hrm HN He. destruct (sd_facts f Hf) as (Ok & D1 & SWD & B1 & B2 & EWB & QU & BB & SP & WD & EW & WP).
  destruct (top_range f Ok) as (T1 & T2 & T3).
  assert (S2 : 2 ^ (sw f + 1) = 2 * 2 ^ sw f) by (rewrite Z.pow_add_r by lia; lia).
  assert (TT : 2 ^ (sw f + 1) < top f) by (unfold top; rewrite S2; clear - EWB B2 B1 SP; nia).
  destruct (pattern_facts f s N Ok ltac:(lia)) as (A1 & A2 & A3 & _ & A5 & A6). rewrite val_small in A3 by (try assumption; lia).
  replace (N =? 0) with false in A6 by (symmetry; apply Z.eqb_neq; lia).
  assert (ET : 0 <= e * 2 ^ sw f < top f) by (unfold top; clear - He SP B1 B2; nia).
  destruct (pattern_facts f false (e * 2 ^ sw f) Ok ET) as (C1 & C2 & C3 & _ & C5 & C6).
  replace (e * 2 ^ sw f =? 0) with false in C6 by (symmetry; apply Z.eqb_neq; clear - He SP B1 B2; nia).
  replace (e * 2 ^ sw f) with ((e - 1) * 2 ^ sw f + 2 ^ sw f) in C3 at 2 by ring. rewrite val_at in C3; [| exact Ok | clear - He B1 B2; lia | clear - S2 SP; lia | right; apply Z.le_refl].
  change (with_sign f false (e * 2 ^ sw f)) with (e * 2 ^ sw f) in *.
  assert (EB : 0 <= e - 1 /\ e <> 0) by (clear - He B1 B2; lia). assert (SW0 : 0 <= sw f) by (clear - SWD D1; lia).
  set (t := e - bias f). assert (Ht : 1 <= t) by (unfold t; clear - He; lia). assert (TP : 0 < 2 ^ t) by (apply pow2_pos; clear - Ht; lia).
  assert (T2' : 2 <= 2 ^ t) by (clear - Ht; replace t with (Z.succ (t - 1)) by ring; rewrite Z.pow_succ_r by lia; pose proof (pow2_pos (t - 1) ltac:(lia)); lia).
  set (k := N / 2 ^ t). pose proof (Z.div_mod N (2 ^ t) ltac:(clear - TP; lia)) as DM. pose proof (Z.mod_pos_bound N _ TP) as MB. fold k in DM.
  assert (QE : quo rm s N t = if goes_up rm s k (k + 1) (2 ^ t) N (Z.odd k) then k + 1 else k) by reflexivity.
  set (md := N mod 2 ^ t) in *. clearbody md k.
  assert (K : 0 <= k < 2 ^ sw f) by (clear - DM MB HN S2 T2' SP; nia).
  assert (QR : 0 <= quo rm s N t <= 2 ^ sw f) by (rewrite QE; clear - K; destruct (goes_up _ _ _ _ _ _ _); lia).
  split; [| exact QR].
  destruct (HO f rm (with_sign f s N) (e * 2 ^ sw f) 0 Hf Hrm A5 C5 (conj (Z.le_refl 0) WP)) as (_ & _ & _ & L & _).
  destruct (finite_not f _ A2) as [AN AI]. destruct (finite_not f _ C2) as [CN CI].
  assert (N0 : 0 < N) by (clear - HN SP; lia).
  assert (E : ieee_div f rm (with_sign f s N) (e * 2 ^ sw f) = round_to f rm s N (2 ^ sw f * 2 ^ (e - 1))).
  { unfold ieee_div. rewrite AN, AI, CN, CI, A6, C6, A1, C1, A3, C3, xorb_false_r. cbn [orb andb]. unfold round_rat. clear - N0.
    replace ((if s then - N else N) =? 0) with false by (symmetry; apply Z.eqb_neq; destruct s; lia).
    replace ((if s then - N else N) <? 0) with s by (destruct s; symmetry; [apply Z.ltb_lt | apply Z.ltb_ge]; lia).
    f_equal. destruct s; lia. }
  assert (RP : 0 < 2 ^ sw f * 2 ^ (e - 1)) by (apply Z.mul_pos_pos; [exact SP | apply pow2_pos; apply EB]).
  pose proof (number_round f rm s N (2 ^ sw f * 2 ^ (e - 1)) Ok (Z.lt_le_incl _ _ N0) RP) as NU. rewrite <- E in NU.
  rewrite (like_number f _ _ L NU), E. clear L NU E HO.
  destruct (round_to_char f rm s N (2 ^ sw f * 2 ^ (e - 1)) Ok N0 RP) as (lo & tiny & HL & B & -> & _).
  pose proof (quantum_pos f Ok) as QP. assert (Q2 : 0 < 2 ^ quantum f) by (apply pow2_pos; clear - QP; lia).
  assert (RE : 2 ^ sw f * 2 ^ (e - 1) = 2 ^ t * 2 ^ quantum f).
  { clear - EB SW0 Ht QP. rewrite <- !Z.pow_add_r by lia. f_equal. unfold t, quantum. ring. }
  rewrite RE in *. assert (K1 : val f k = k /\ val f (k + 1) = k + 1) by (clear - K S2 Ok SP; split; apply val_small; try exact Ok; lia). destruct K1 as [K1 K2].
  assert (LK : lo = k).
  { apply (floor_unique f (2 ^ t * 2 ^ quantum f) (N * 2 ^ quantum f) lo k Ok RP HL (proj1 K) B). rewrite K1, K2. clear - DM MB Q2 TP. nia. }
  subst lo. rewrite K1, K2.
  assert (GS : goes_up rm s k (k + 1) (2 ^ t * 2 ^ quantum f) (N * 2 ^ quantum f) (Z.odd k) = goes_up rm s k (k + 1) (2 ^ t) N (Z.odd k)).
  { rewrite <- (goes_up_scale rm s k (k + 1) (2 ^ t) N (Z.odd k) 1 (2 ^ quantum f)) by (try exact Q2; clear; lia). rewrite !Z.mul_1_r, Z.mul_1_l. reflexivity. }
  rewrite GS, <- QE. unfold packed. assert (QT : quo rm s N t < top f) by (clear - QR TT S2 SP; lia).
  destruct (Z.leb_spec (top f) (quo rm s N t)) as [X | _]; [| reflexivity]. exfalso. clear - X QT. lia.
Qed.

(** The multiplication, which is exact. *)
Lemma shift_mul : forall H f rm s P, host_ok H -> sd f -> 0 <= rm <= 3 -> 0 <= P <= 2 ^ 11 ->
  fst (h_mul H f rm (with_sign f s P) ((bias f + dd f) * 2 ^ sw f)) = with_sign f s (P * 2 ^ dd f) /\ P * 2 ^ dd f <= 2 ^ (sw f + 1).
Proof.
  intros H f rm s P HO Hf Hrm HP. destruct (sd_facts f Hf) as (Ok & D1 & SWD & B1 & B2 & EWB & QU & BB & SP & WD & EW & WP).
  destruct (top_range f Ok) as (T1 & T2 & T3). assert (DP : 0 < 2 ^ dd f) by (apply pow2_pos; lia).
  assert (S1 : 2 ^ (sw f + 1) = 2 ^ 11 * 2 ^ dd f) by (rewrite SWD, <- Z.pow_add_r by lia; f_equal; lia).
  assert (S2 : 2 ^ (sw f + 1) = 2 * 2 ^ sw f) by (rewrite Z.pow_add_r by lia; lia).
  assert (TT : 2 ^ (sw f + 1) < top f) by (unfold top; rewrite S2; clear - EWB B2 B1 SP; nia).
  assert (PD : 0 <= P * 2 ^ dd f <= 2 ^ (sw f + 1)) by (rewrite S1; clear - HP DP; nia). split; [| lia].
  assert (P0 : P <= P * 2 ^ dd f) by (clear - HP DP; nia).
  destruct (pattern_facts f s P Ok ltac:(lia)) as (A1 & A2 & A3 & _ & A5 & A6). rewrite val_small in A3 by (try assumption; lia).
  set (e := bias f + dd f) in *. assert (He : 0 < e < 2 ^ ew f - 1) by (unfold e; lia).
  assert (ET : 0 <= e * 2 ^ sw f < top f) by (unfold top; clear - He SP; nia).
  destruct (pattern_facts f false (e * 2 ^ sw f) Ok ET) as (C1 & C2 & C3 & _ & C5 & C6).
  replace (e * 2 ^ sw f =? 0) with false in C6 by (symmetry; apply Z.eqb_neq; clear - He SP; nia).
  replace (e * 2 ^ sw f) with ((e - 1) * 2 ^ sw f + 2 ^ sw f) in C3 at 2 by ring. rewrite val_at in C3; [| exact Ok | clear - He B1 B2; lia | clear - S2 SP; lia | right; apply Z.le_refl].
  change (with_sign f false (e * 2 ^ sw f)) with (e * 2 ^ sw f) in *.
  destruct (HO f rm (with_sign f s P) (e * 2 ^ sw f) 0 Hf Hrm A5 C5 (conj (Z.le_refl 0) WP)) as (_ & _ & L & _).
  destruct (finite_not f _ A2) as [AN AI]. destruct (finite_not f _ C2) as [CN CI].
  assert (E : ieee_mul f rm (with_sign f s P) (e * 2 ^ sw f) = (with_sign f s (P * 2 ^ dd f), 0)).
  { unfold ieee_mul. rewrite AN, AI, CN, CI, A1, C1, xorb_false_r, andb_false_r. cbn [orb andb]. unfold units. rewrite A1, C1, A3, C3.
    unfold round_rat. set (V := 2 ^ sw f * 2 ^ (e - 1)). assert (VP : 0 < V) by (apply Z.mul_pos_pos; [exact SP | apply pow2_pos; clear - He; lia]).
    clear AN AI CN CI A1 A2 A3 A5 A6 C1 C2 C3 C5 C6 L HO.
    destruct (Z.eq_dec P 0) as [-> | NP].
    - replace ((if s then -0 else 0) * V) with 0 by (destruct s; reflexivity). reflexivity.
    - replace ((if s then - P else P) * V =? 0) with false by (symmetry; apply Z.eqb_neq; clear - NP VP; destruct s; nia).
      replace ((if s then - P else P) * V <? 0) with s by (clear - NP VP HP; destruct s; symmetry; [apply Z.ltb_lt | apply Z.ltb_ge]; nia).
      replace (Z.abs ((if s then - P else P) * V)) with (P * V) by (clear - NP VP HP; destruct s; rewrite Z.abs_mul; nia).
      pose proof (quantum_pos f Ok) as QP.
      apply round_to_rep; [exact Ok | clear - NP HP VP; nia | apply pow2_pos; clear - QP; lia | clear - PD TT; lia |].
      rewrite val_small by (try exact Ok; exact PD). unfold V. clear - D1 SWD QP He. rewrite <- !Z.mul_assoc, <- !Z.pow_add_r by lia. f_equal. f_equal. unfold e, quantum. ring. }
  assert (NU : number f (fst (ieee_mul f rm (with_sign f s P) (e * 2 ^ sw f)))) by (rewrite E; apply number_of; [exact Ok | clear - PD TT; lia]).
  rewrite (like_number f _ _ L NU), E. reflexivity.
Qed.

(** Reading fields of a pattern with sign, and putting a half together. *)
Lemma read_low : forall f s m k n, okf f -> 0 <= k -> 0 <= n -> k + n <= width f - 1 ->
  Z.land (Z.shiftr (with_sign f s m) k) (2 ^ n - 1) = (m / 2 ^ k) mod 2 ^ n.
Proof.
  intros f s m k n [He Hs] Hk Hn HW. rewrite land_mask by lia. rewrite Z.shiftr_div_pow2 by lia.
  assert (KP : 0 < 2 ^ k) by (apply pow2_pos; lia). assert (NP : 0 < 2 ^ n) by (apply pow2_pos; lia). unfold with_sign.
  replace (2 ^ (width f - 1)) with (2 ^ (width f - 1 - n - k) * 2 ^ n * 2 ^ k) by (rewrite <- !Z.pow_add_r by lia; f_equal; ring).
  rewrite !Z.mul_assoc, Z.div_add_l by lia. rewrite Z.add_comm, Z.mod_add by lia. reflexivity.
Qed.
Lemma read_expo : forall f s m, okf f -> 0 <= m < top f -> Z.land (Z.shiftr (with_sign f s m) (sw f)) (2 ^ ew f - 1) = m / 2 ^ sw f.
Proof.
  intros f s m Ok Hm. pose proof Ok as [He Hs]. rewrite land_mask, Z.shiftr_div_pow2 by lia.
  destruct (pattern_facts f s m Ok Hm) as (_ & _ & _ & E & _). exact E.
Qed.
Lemma half_value : forall (s : bool) he hm, 0 <= he < 32 -> 0 <= hm < 1024 ->
  wrap 16 (Z.lor (Z.lor hm (Z.shiftl he 10)) (Z.shiftl (Z.b2z s) 15)) = with_sign half s (he * 1024 + hm).
Proof.
  intros s he hm H1 H2. rewrite !Z.shiftl_mul_pow2 by lia. rewrite (Z.lor_comm hm), lor_add by lia. rewrite Z.lor_comm, lor_add by lia.
  change (2 ^ 10) with 1024. change (2 ^ 15) with 32768. rewrite wrap_id; [reflexivity |]. unfold inw. change (2 ^ 16) with 65536. destruct s; cbn [Z.b2z]; lia.
Qed.

(** Comparing the half converted back with the source. *)
Lemma reconverted : forall f a s m, sd f -> 0 <= a < 2 ^ width f -> special f a = false -> is_zero f a = false -> sign f a = s -> 0 <= m <= top half ->
  host_eq f (fst (from_half f (with_sign half s m))) a = (m <? top half) && (val half m * 2 ^ (quantum f - quantum half) =? magnitude f a).
Proof.
  intros f a s m Hf Ha SA ZA S Hm. destruct (sd_facts f Hf) as (Ok & D1 & SWD & B1 & B2 & EWB & QU & BB & SP & WD & EW & WP).
  pose proof (number_of half s m ok_half Hm) as [R N]. change (2 ^ width half) with 65536 in R.
  destruct (widen_correct f _ Hf R) as (_ & RR & W). rewrite N in W. destruct W as (W1 & W2 & W3 & W4).
  set (r := fst (from_half f (with_sign half s m))) in *. clearbody r. unfold host_eq. rewrite W3. destruct (finite_not f a SA) as [AN AI]. rewrite AN. cbn [negb andb].
  pose proof (magnitude_pos f a Ok ZA) as MP.
  destruct (Z.ltb_spec m (top half)) as [L | L]; cbn [andb].
  - destruct (pattern_facts half s m ok_half (conj (proj1 Hm) L)) as (F1 & F2 & F3 & _). destruct (finite_not half _ F2) as [_ FI]. specialize (W4 FI). rewrite W4.
    unfold units. rewrite F1, F3, S. clear. destruct s;
      [destruct (Z.eqb_spec (- val half m * 2 ^ (quantum f - quantum half)) (- magnitude f a)) | destruct (Z.eqb_spec (val half m * 2 ^ (quantum f - quantum half)) (magnitude f a))];
      destruct (Z.eqb_spec (val half m * 2 ^ (quantum f - quantum half)) (magnitude f a)); lia.
  - assert (m = top half) by (clear - Hm L; lia). subst m.
    assert (IT : is_inf half (with_sign half s (top half)) = true) by (destruct s; reflexivity). rewrite IT in W2.
    apply Z.eqb_neq. intros E.
    unfold is_inf in W2. apply andb_true_iff in W2. destruct W2 as [SR FR]. unfold special in SR. apply Z.eqb_eq in SR, FR.
    assert (MR : magnitude f r = val f (top f)).
    { destruct (top_range f Ok) as (T1 & T2 & T3). rewrite <- (val_magnitude f false (top f)); [| exact Ok | clear - T1 T2; lia].
      pose proof Ok as [He Hs]. assert (EP : 0 < 2 ^ ew f) by (apply pow2_pos; clear - He; lia).
      destruct (fields f false (2 ^ ew f - 1) 0 Ok) as (_ & G2 & G3 & _); [clear - EP; lia | clear - SP; lia |]. rewrite Z.add_0_r in G2, G3. fold (top f) in G2, G3.
      unfold magnitude. rewrite SR, FR, G2, G3. reflexivity. }
    destruct (pattern_of f a Ok Ha) as (s' & E' & F' & HE & HF & EA & _ & XE & XF & XR).
    assert (MA : magnitude f a = val f (E' * 2 ^ sw f + F')) by (rewrite EA; apply val_magnitude; assumption).
    assert (LT : E' * 2 ^ sw f + F' < top f).
    { unfold special in SA. rewrite XE in SA. apply Z.eqb_neq in SA. unfold top. clear - SA HE HF SP. nia. }
    pose proof (val_mono f _ _ Ok (conj (proj1 XR) LT)) as VL. rewrite <- MA, <- MR in VL. unfold units in E.
    pose proof (proj1 (val_step f _ Ok (proj1 XR))) as V0. rewrite <- MA in V0. clear - E VL V0 MP. destruct (sign f r), (sign f a); lia.
Qed.
