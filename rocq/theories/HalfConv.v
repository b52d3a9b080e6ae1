(** ConvertToHalfFP rounds correctly: the whole function. *)
From Coq Require Import ZArith Bool List Lia.
From Verif Require Import Bits IeeeSpec FpSpec IntModel FpModel FpProofs FpCvt FpWiden FpHalf FarithSpec FarithModel FarithProofs FarithExec
  RoundProofs RoundTwice HalfModel HalfProofs.
Import ListNotations.
Local Open Scope Z_scope.

(** The last part of the function, from the exponent and fraction found. *)
Definition finish (f : fmt) (rm a u : Z) (s : bool) (he hm : Z) (differ : bool) : Z * Z :=
  let overflow := 31 <=? he in
  let '(he, hm) :=
    if overflow then
      match rm with
      | 1 => (30, 1023)
      | 2 => if s then (31, 0) else (30, 1023)
      | 3 => if s then (30, 1023) else (31, 0)
      | _ => (31, 0) end
    else (he, hm) in
  let value := wrap 16 (Z.lor (Z.lor hm (Z.shiftl he 10)) (Z.shiftl (Z.b2z s) 15)) in
  let exact := host_eq f (fst (from_half f value)) a in
  (value, Z.lor (if overflow then Z.lor fOF fNX else 0)
            (Z.lor (if negb exact && ((u <? 0) || ((u =? 0) && differ)) then fUF else 0) (if negb exact && differ then fNX else 0))).

Definition div_exp (f : fmt) (E : Z) : Z :=
  if 0 <? E - bd f then bias f + dd f
  else if E - bd f <? 0 then Z.min (bias f + dd f + (1 - E + bd f)) (2 ^ ew f - 2)
  else bias f + dd f + 1.

Lemma quo_bound : forall rm s N t m, 0 < 2 ^ t -> 0 <= N <= m * 2 ^ t -> 0 <= quo rm s N t <= m.
Proof.
  intros rm s N t m TP HN. unfold quo. pose proof (Z.div_mod N (2 ^ t) ltac:(lia)) as DM. pose proof (Z.mod_pos_bound N _ TP) as MB.
  set (k := N / 2 ^ t) in *. set (md := N mod 2 ^ t) in *. clearbody k md.
  assert (K : 0 <= k) by nia. assert (KM : k <= m) by nia.
  destruct (goes_up rm s k (k + 1) (2 ^ t) N (Z.odd k)) eqn:U; [| lia]. apply up_inexact in U; [| exact TP | lia]. split; [lia |]. nia.
Qed.
Lemma quo_lower : forall rm s N t m, 0 < 2 ^ t -> 0 <= m -> m * 2 ^ t <= N -> m <= quo rm s N t.
Proof.
  intros rm s N t m TP Hm HN. unfold quo. pose proof (Z.div_mod N (2 ^ t) ltac:(lia)) as DM. pose proof (Z.mod_pos_bound N _ TP) as MB.
  set (k := N / 2 ^ t) in *. set (md := N mod 2 ^ t) in *. clearbody k md.
  assert (K : m <= k) by nia. destruct (goes_up rm s k (k + 1) (2 ^ t) N (Z.odd k)); lia.
Qed.

Lemma to_half_shape : forall H f rm a, host_ok H -> sd f -> 0 <= rm <= 3 -> 0 <= a < 2 ^ width f -> special f a = false -> is_zero f a = false ->
  let s := sign f a in let E := expo f a in let N := 2 ^ sw f + frac f a in let e := div_exp f E in
  let P := quo rm s N (e - bias f) in
  (0 < E - bd f -> 1024 <= P <= 2048) /\ (E - bd f = 0 -> 512 <= P <= 1024) /\ (E - bd f < 0 -> 0 <= P <= 512) /\
  to_half H f rm a = finish f rm a (E - bd f) s (if 0 <? E - bd f then E + (P / 1024 - 1) - bd f else if E - bd f <? 0 then 0 else P / 1024)
                       (P mod 1024) (negb (P * 2 ^ dd f =? N)).
Proof.
  intros H f rm a HO Hf Hrm Ha SA ZA s E N e P. destruct (sd_facts f Hf) as (Ok & D1 & SWD & B1 & B2 & EWB & QU & BB & SP & WD & EW & WP).
  destruct (pattern_of f a Ok Ha) as (s' & E' & M & HE & HM & EA & XS & XE & XF & XR). fold s in XS. fold E in XE.
  subst s' E'. assert (NM : N = 2 ^ sw f + M) by (unfold N; rewrite XF; reflexivity). assert (NR : 2 ^ sw f <= N < 2 ^ (sw f + 1)).
  { rewrite NM, Z.pow_add_r by (clear - SWD D1; lia). clear - HM. lia. }
  assert (EN : E < 2 ^ ew f - 1). { unfold special in SA. fold E in SA. apply Z.eqb_neq in SA. clear - SA HE. lia. }
  assert (ER : bias f + dd f <= e < 2 ^ ew f - 1).
  { unfold e, div_exp. clear - EWB B1 B2 D1 BB SWD HE EN. destruct (Z.ltb_spec 0 (E - bd f)); [lia |]. destruct (Z.ltb_spec (E - bd f) 0); lia. }
  assert (DP : 0 < 2 ^ dd f) by (apply pow2_pos; clear - D1; lia).
  assert (SD : 2 ^ sw f = 1024 * 2 ^ dd f) by (rewrite SWD, Z.pow_add_r by (clear - D1; lia); clear; lia).
  assert (S2 : 2 ^ (sw f + 1) = 2 * 2 ^ sw f) by (rewrite Z.pow_add_r by (clear - SWD D1; lia); clear; lia).
  assert (TP : 0 < 2 ^ (e - bias f)) by (apply pow2_pos; clear - ER D1; lia).
  assert (C1 : 0 < E - bd f -> 1024 <= P <= 2048).
  { intros U. assert (EE : e - bias f = dd f) by (unfold e, div_exp; apply Z.ltb_lt in U; rewrite U; ring). unfold P. rewrite EE. split.
    - apply quo_lower; [exact DP | lia | clear - NR SD; lia].
    - apply quo_bound; [exact DP | clear - NR SD S2 SP; lia]. }
  assert (C2 : E - bd f = 0 -> 512 <= P <= 1024).
  { intros U. assert (EE : e - bias f = Z.succ (dd f)).
    { unfold e, div_exp. rewrite U. cbn [Z.ltb Z.compare]. ring. }
    unfold P. rewrite EE. assert (S3 : 2 ^ Z.succ (dd f) = 2 * 2 ^ dd f) by (apply Z.pow_succ_r; clear - D1; lia). split.
    - apply quo_lower; [rewrite S3; clear - DP; lia | lia | rewrite S3; clear - NR SD; lia].
    - apply quo_bound; [rewrite S3; clear - DP; lia | rewrite S3; clear - NR SD S2 SP; lia]. }
  assert (C3 : E - bd f < 0 -> 0 <= P <= 512).
  { intros U. assert (EE : dd f + 2 <= e - bias f).
    { unfold e, div_exp. clear - EWB B1 B2 D1 BB SWD HE EN U. destruct (Z.ltb_spec 0 (E - bd f)); [lia |]. destruct (Z.ltb_spec (E - bd f) 0); lia. }
    assert (S3 : 4 * 2 ^ dd f <= 2 ^ (e - bias f)).
    { replace (4 * 2 ^ dd f) with (2 ^ (dd f + 2)) by (rewrite Z.pow_add_r by (clear - D1; lia); clear; lia). apply Z.pow_le_mono_r; [clear; lia | exact EE]. }
    unfold P. apply quo_bound; [exact TP | clear - NR SD S2 SP S3; lia]. }
  split; [exact C1 |]. split; [exact C2 |]. split; [exact C3 |].
  assert (PR : 0 <= P <= 2 ^ 11) by (change (2 ^ 11) with 2048; clear - C1 C2 C3; lia).
  destruct (shift_div H f rm s N e HO Hf Hrm NR ltac:(clear - ER D1; lia)) as [DIV _]. fold P in DIV.
  destruct (shift_mul H f rm s P HO Hf Hrm PR) as [MUL PD].
  destruct (finite_not f a SA) as [AN AI].
  destruct (top_range f Ok) as (T1 & T2 & T3).
  assert (TT : 2 ^ (sw f + 1) < top f) by (unfold top; rewrite S2; clear - EWB B2 B1 SP; nia).
  assert (W0 : 4096 < 2 ^ width f) by (rewrite WD; clear - Hf; destruct Hf as [-> | ->]; reflexivity).
  assert (FIT : forall x, 0 <= x < 4096 -> wrap (width f) x = x) by (intros x Hx; apply wrap_id; unfold inw; clear - Hx W0; lia).
  assert (FITT : forall x, 0 <= x < top f -> wrap (width f) x = x).
  { intros x Hx. apply wrap_id. unfold inw. pose proof (number_of f false x Ok ltac:(clear - Hx; lia)) as [R _]. exact R. }
  assert (WS : 0 <= width f - 1) by (clear - WD EW SWD D1; lia). assert (SW0 : 0 <= sw f) by (clear - SWD D1; lia). assert (EW0 : 0 <= ew f) by (clear - EW; lia).
  assert (SG : Z.shiftr a (width f - 1) = Z.b2z s).
  { rewrite EA, Z.shiftr_div_pow2 by exact WS. unfold with_sign. rewrite Z.div_add_l by (clear - XR; lia). rewrite Z.div_small by exact XR. ring. }
  assert (EX : Z.shiftr (Z.land a (kExpMask f)) (sw f) = E).
  { unfold kExpMask. rewrite land_field by assumption. rewrite Z.shiftr_shiftl_l, Z.sub_diag, Z.shiftl_0_r by exact SW0. reflexivity. }
  assert (MX : Z.land a (kSigMask f) = M) by (unfold kSigMask; rewrite land_mask by exact SW0; exact XF).
  assert (FT : Z.lor (Z.lor (wrap (width f) (Z.shiftl (Z.b2z s) (width f - 1))) (Z.shiftl 1 (sw f))) M = with_sign f s N).
  { pose proof (assemble f s 1 M (sw f) Ok ltac:(clear - EW EWB B1 B2; lia) ltac:(clear - SW0; lia) HM) as A.
    rewrite Z.sub_diag, Z.shiftl_0_r, Z.pow_0_r in A. rewrite (FITT M) in A by (clear - HM TT S2 SP; lia).
    rewrite (FITT (Z.shiftl 1 (sw f))) in A by (rewrite Z.shiftl_mul_pow2 by exact SW0; clear - TT S2 SP; lia).
    rewrite A, NM. f_equal. clear. ring. }
  assert (ZT : (a =? 0) || (a =? Z.shiftl 1 (width f - 1)) = false).
  { rewrite Z.shiftl_mul_pow2 by exact WS. apply orb_false_iff. rewrite !Z.eqb_neq.
    assert (NZ : ~ (E = 0 /\ M = 0)).
    { unfold is_zero in ZA. fold E in ZA. rewrite XF in ZA. intros [-> ->]. discriminate ZA. }
    assert (NZ' : E * 2 ^ sw f + M <> 0) by (clear - NZ HE HM SP; nia).
    rewrite EA. unfold with_sign. clear - NZ' XR. destruct s; cbn [Z.b2z]; lia. }
  unfold to_half. rewrite !(IsNaN_eq f a Ok), (IsInf_eq f a Ok), AN, AI, ZT. cbn [orb].
  rewrite SG, EX, MX, FT, (host_rm_id rm Hrm). change (bias half) with 15. change (sw half) with 10. change (ew half) with 5. change (width half - 1) with 15.
  fold (bd f) (dd f). rewrite !Z.shiftl_1_l. change (2 ^ 5 - 1) with 31. change (2 ^ 10) with 1024. change (kSigMask half) with 1023.
  cbv zeta.
  assert (DE : (if 0 <? E - bd f then bias f + dd f
                else if E - bd f <? 0 then Z.min (wrap (width f) (bias f + dd f + (1 - E + bd f))) (2 ^ ew f - 1 - 1)
                else bias f + dd f + 1) = e).
  { unfold e, div_exp. destruct (Z.ltb_spec 0 (E - bd f)); [reflexivity |]. destruct (Z.ltb_spec (E - bd f) 0) as [L |]; [| reflexivity].
    rewrite FIT by (clear - L D1 B1 B2 HE; lia). f_equal. clear. ring. }
  rewrite DE.
  rewrite !(Z.shiftl_mul_pow2 _ (sw f)) by exact SW0.
  rewrite (FITT (e * 2 ^ sw f)) by (unfold top; clear - ER SP D1 B1 B2; nia).
  rewrite (FITT ((bias f + dd f) * 2 ^ sw f)) by (unfold top; clear - ER SP D1 B1 B2; nia).
  rewrite DIV, MUL.
  set (Q := P * 2 ^ dd f) in *. assert (QR : 0 <= Q) by (unfold Q; clear - PR DP; nia).
  assert (QS : Q / 2 ^ sw f = P / 1024).
  { unfold Q. rewrite SD. apply Z.div_mul_cancel_r; [clear; lia | clear - DP; lia]. }
  assert (QD : Q / 2 ^ dd f = P) by (unfold Q; apply Z.div_mul; clear - DP; lia).
  rewrite (read_expo f s Q Ok) by (clear - QR PD TT; lia). rewrite QS.
  pose proof (read_low f s Q (dd f) 10 Ok ltac:(clear - D1; lia) ltac:(clear; lia) ltac:(clear - D1 WD EW SWD; lia)) as L10.
  pose proof (read_low f s Q (sw f) 5 Ok SW0 ltac:(clear; lia) ltac:(clear - D1 WD EW SWD; lia)) as L5.
  change (2 ^ 10 - 1) with 1023 in L10. change (2 ^ 5 - 1) with 31 in L5. rewrite L10, L5, QD, QS. clear L10 L5.
  assert (DF : host_eq f (with_sign f s Q) (with_sign f s N) = (Q =? N)).
  { destruct (pattern_facts f s Q Ok ltac:(clear - QR PD TT; lia)) as (F1 & F2 & F3 & _). destruct (finite_not f _ F2) as [F4 _].
    destruct (pattern_facts f s N Ok ltac:(clear - NR TT SP; lia)) as (G1 & G2 & G3 & _). destruct (finite_not f _ G2) as [G4 _].
    unfold host_eq, units. rewrite F1, F3, F4, G1, G3, G4, !val_small by (try exact Ok; clear - QR PD NR SP; lia). cbn [negb andb]. clear. destruct s;
      [destruct (Z.eqb_spec (- Q) (- N)) | destruct (Z.eqb_spec Q N)]; destruct (Z.eqb_spec Q N); lia. }
  rewrite DF.
  assert (HEX : (if 0 <? E - bd f then wrap (width f) (Z.land (wrap (width f) (E + (P / 1024 - 1))) (2 ^ ew f - 1) - bd f)
                 else if E - bd f <? 0 then 0 else (P / 1024) mod 2 ^ 5)
              = (if 0 <? E - bd f then E + (P / 1024 - 1) - bd f else if E - bd f <? 0 then 0 else P / 1024)).
  { destruct (Z.ltb_spec 0 (E - bd f)) as [L | L].
    - specialize (C1 L). assert (PQ : 1 <= P / 1024 <= 2) by (clear - C1; split; [apply Z.div_le_lower_bound | apply Z.div_le_upper_bound]; lia).
      set (pq := P / 1024) in *. clearbody pq. assert (E4 : 2 ^ ew f < 4096) by (rewrite EWB; clear - B1 B2; lia).
      rewrite (FIT (E + (pq - 1))) by (clear - PQ E4 EN HE; lia). rewrite land_mask by exact EW0.
      rewrite Z.mod_small by (clear - PQ EN HE; lia). apply FIT. clear - PQ EN HE E4 L B1. lia.
    - destruct (Z.ltb_spec (E - bd f) 0); [reflexivity |]. specialize (C2 ltac:(clear - L H0; lia)). apply Z.mod_small.
      split; [apply Z.div_pos; clear - C2; lia | apply Z.div_lt_upper_bound; clear - C2; lia]. }
  rewrite HEX. clear HEX.
  assert (HMX : (if E - bd f <? 0
                 then if negb (Z.land (with_sign f s P) 1024 =? 0) then Z.land (Z.shiftr (with_sign f s P) 1) 1023 else Z.land (with_sign f s P) 1023
                 else P mod 2 ^ 10) = P mod 1024).
  { destruct (Z.ltb_spec (E - bd f) 0) as [L |]; [| reflexivity]. specialize (C3 L).
    assert (B10 : Z.land (with_sign f s P) 1024 = 0).
    { change 1024 with (Z.shiftl (2 ^ 1 - 1) 10). rewrite land_field by (clear; lia).
      pose proof (read_low f s P 10 1 Ok) as R. rewrite land_mask, Z.shiftr_div_pow2 in R by (clear; lia). rewrite R by (clear - WD EW SWD D1; lia).
      rewrite Z.div_small by (change (2 ^ 10) with 1024; clear - C3; lia). reflexivity. }
    rewrite B10. cbn [Z.eqb negb]. pose proof (read_low f s P 0 10 Ok) as R. rewrite Z.shiftr_0_r, Z.pow_0_r, Z.div_1_r in R. apply R; clear - WD EW SWD D1; lia. }
  rewrite HMX. clear HMX. unfold finish.
  assert (SS : negb (Z.b2z s =? 0) = s) by (destruct s; reflexivity). rewrite SS.
  set (he := if 0 <? E - bd f then _ else _).
  destruct (31 <=? he); [| reflexivity]. clear - Hrm. assert (C : rm = 0 \/ rm = 1 \/ rm = 2 \/ rm = 3) by lia.
  destruct C as [-> | [-> | [-> | ->]]]; destruct s; reflexivity.
Qed.

Lemma goes_up_ratio : forall rm s lo hi r X lo' hi' r' X' o c, 0 < c -> lo' * r' = lo * r * c -> hi' * r' = hi * r * c -> X' = X * c ->
  goes_up rm s lo' hi' r' X' o = goes_up rm s lo hi r X o.
Proof.
  intros rm s lo hi r X lo' hi' r' X' o c HC E1 E2 ->. unfold goes_up.
  assert (E3 : (lo' + hi') * r' = (lo + hi) * r * c) by (rewrite Z.mul_add_distr_r, E1, E2; ring). rewrite E3, E1, (Z.mul_assoc 2 X c).
  set (u := (lo + hi) * r). set (v := lo * r). clearbody u v. clear - HC.
  assert (L : forall a b, (a * c <? b * c) = (a <? b)) by (intros a b; destruct (Z.ltb_spec (a * c) (b * c)), (Z.ltb_spec a b); nia).
  assert (E : forall a b, (a * c =? b * c) = (a =? b)) by (intros a b; destruct (Z.eqb_spec (a * c) (b * c)), (Z.eqb_spec a b); nia).
  assert (M : forall a b, (a * c <=? b * c) = (a <=? b)) by (intros a b; destruct (Z.leb_spec (a * c) (b * c)), (Z.leb_spec a b); nia).
  rewrite !L, E, M. reflexivity.
Qed.

Lemma finish_packed : forall f rm a u he hm differ ly PP, sd f -> 0 <= rm <= 3 -> 0 <= a < 2 ^ width f -> special f a = false -> is_zero f a = false ->
  let s := sign f a in let Y := magnitude f a in let D := 2 ^ (quantum f - quantum half) in
  0 <= he -> 0 <= hm < 1024 -> he * 1024 + hm = PP -> 0 <= ly -> val half ly * D <= Y < val half (ly + 1) * D ->
  PP = (if goes_up rm s (val half ly * D) (val half (ly + 1) * D) 1 Y (Z.odd ly) then ly + 1 else ly) ->
  (0 < u -> differ = negb (val half ly * D =? Y)) -> (u <= 0 -> differ = true /\ PP <= 1024) -> tiny_before f half Y = (u <=? 0) ->
  finish f rm a u s he hm differ = packed half rm s PP (val half ly * D =? Y) (tiny_before f half Y).
Proof.
  intros f rm a u he hm differ ly PP Hf Hrm Ha SA ZA s Y D Hhe Hhm EPP HL B EP DU DN TB.
  destruct (sd_facts f Hf) as (Ok & D1 & SWD & B1 & B2 & EWB & QU & BB & SP & WD & EW & WP).
  assert (DP : 0 < D) by (unfold D; apply pow2_pos; rewrite QU; clear - B1 D1; lia).
  pose proof (val_step half ly ok_half HL) as ST.
  assert (EXA : (val half PP * D =? Y) = (val half ly * D =? Y)).
  { rewrite EP. destruct (goes_up _ _ _ _ _ _ _) eqn:U; [| reflexivity]. apply up_inexact in U; [| clear; lia | clear - DP ST; nia].
    clear - U B. destruct (Z.eqb_spec (val half (ly + 1) * D) Y), (Z.eqb_spec (val half ly * D) Y); lia. }
  unfold finish, packed. rewrite TB. change (top half) with 31744.
  destruct (Z.leb_spec 31 he) as [OV | OV].
  - assert (OV' : 31744 <= PP) by (clear - OV Hhm EPP; lia). apply Z.leb_le in OV'. rewrite OV'. apply Z.leb_le in OV'.
    assert (UP : 0 < u) by (destruct (Z.le_gt_cases u 0) as [L |]; [destruct (DN L) as [_ X]; clear - X OV'; lia | assumption]).
    assert (C : rm = 0 \/ rm = 1 \/ rm = 2 \/ rm = 3) by (clear - Hrm; lia).
    assert (NU : forall x : bool, (if negb x && ((u <? 0) || (u =? 0) && differ) then fUF else 0) = 0).
    { intros x. replace (u <? 0) with false by (symmetry; apply Z.ltb_ge; clear - UP; lia). replace (u =? 0) with false by (symmetry; apply Z.eqb_neq; clear - UP; lia).
      cbn [orb andb]. rewrite andb_false_r. reflexivity. }
    assert (NXX : forall b : bool, Z.lor (Z.lor fOF fNX) (Z.lor 0 (if b then fNX else 0)) = fOF + fNX) by (intros []; reflexivity).
    assert (V : forall h m, 0 <= h < 32 -> 0 <= m < 1024 -> forall g : Z -> Z * Z,
       g (wrap 16 (Z.lor (Z.lor m (Z.shiftl h 10)) (Z.shiftl (Z.b2z s) 15))) = g (with_sign half s (h * 1024 + m))) by (intros h m A1 A2 g; rewrite half_value by assumption; reflexivity).
    destruct C as [-> | [-> | [-> | ->]]]; destruct s eqn:ES; cbv zeta; rewrite half_value by (clear; lia); rewrite NU, NXX; reflexivity.
  - assert (NO : PP < 31744) by (clear - OV Hhm EPP Hhe; lia). apply Z.leb_gt in NO. rewrite NO. apply Z.leb_gt in NO.
    cbv zeta. rewrite half_value by (clear - OV Hhe Hhm; lia). rewrite EPP.
    assert (P0 : 0 <= PP) by (clear - EPP Hhe Hhm; lia).
    rewrite (reconverted f a s PP Hf Ha SA ZA eq_refl ltac:(change (top half) with 31744; clear - P0 NO; lia)).
    change (top half) with 31744. replace (PP <? 31744) with true by (symmetry; apply Z.ltb_lt; exact NO). cbn [andb]. fold D Y. rewrite EXA. f_equal.
    destruct (Z.le_gt_cases u 0) as [L | L].
    + destruct (DN L) as [-> _]. rewrite andb_true_r. replace ((u <? 0) || (u =? 0)) with true.
      2:{ symmetry. apply orb_true_iff. rewrite Z.ltb_lt, Z.eqb_eq. clear - L. lia. }
      apply Z.leb_le in L. rewrite L. destruct (val half ly * D =? Y); reflexivity.
    + rewrite (DU L). replace (u <=? 0) with false by (symmetry; apply Z.leb_gt; exact L). replace (u <? 0) with false by (symmetry; apply Z.ltb_ge; clear - L; lia).
      replace (u =? 0) with false by (symmetry; apply Z.eqb_neq; clear - L; lia). cbn [orb andb]. rewrite andb_false_r. destruct (val half ly * D =? Y); reflexivity.
Qed.

Lemma to_half_number : forall H f rm a, host_ok H -> sd f -> 0 <= rm <= 3 -> 0 <= a < 2 ^ width f -> special f a = false -> is_zero f a = false ->
  narrowed f half rm (sign f a) (magnitude f a) (to_half H f rm a).
Proof.
  intros H f rm a HO Hf Hrm Ha SA ZA. destruct (sd_facts f Hf) as (Ok & D1 & SWD & B1 & B2 & EWB & QU & BB & SP & WD & EW & WP).
  destruct (to_half_shape H f rm a HO Hf Hrm Ha SA ZA) as (C1 & C2 & C3 & ->). pose proof (magnitude_pos f a Ok ZA) as YP.
  assert (MG : magnitude f a = if expo f a =? 0 then frac f a else (2 ^ sw f + frac f a) * 2 ^ (expo f a - 1)) by reflexivity.
  assert (HE : 0 <= expo f a < 2 ^ ew f) by (apply Z.mod_pos_bound; apply pow2_pos; clear - EW; lia).
  assert (HM : 0 <= frac f a < 2 ^ sw f) by (apply Z.mod_pos_bound; exact SP).
  pose proof (finish_packed f rm a (expo f a - bd f)) as FIN. cbv zeta in FIN, C1, C2, C3 |- *. set (s := sign f a) in *. set (Y := magnitude f a) in *.
  set (E := expo f a) in *. set (M := frac f a) in *. clearbody s E M. set (N := 2 ^ sw f + M) in *.
  assert (NR : 2 ^ sw f <= N < 2 * 2 ^ sw f) by (unfold N; clear - HM; lia).
  set (e := div_exp f E) in *. set (t := e - bias f) in *. set (P := quo rm s N t) in *.
  unfold narrowed. set (D := 2 ^ (quantum f - quantum half)) in *.
  assert (DD : D = 2 ^ bd f * 2 ^ dd f) by (unfold D; rewrite QU; apply Z.pow_add_r; clear - B1 D1; lia).
  assert (DP : 0 < 2 ^ dd f) by (apply pow2_pos; clear - D1; lia). assert (BP : 0 < 2 ^ bd f) by (apply pow2_pos; clear - B1; lia).
  assert (SD : 2 ^ sw f = 1024 * 2 ^ dd f) by (rewrite SWD, Z.pow_add_r by (clear - D1; lia); clear; lia).
  assert (ER : dd f <= t).
  { unfold t, e, div_exp. clear - EWB B1 B2 D1 BB SWD HE. destruct (Z.ltb_spec 0 (E - bd f)); [lia |]. destruct (Z.ltb_spec (E - bd f) 0); lia. }
  assert (TP : 0 < 2 ^ t) by (apply pow2_pos; clear - ER D1; lia).
  assert (TB : tiny_before f half Y = (E - bd f <=? 0)).
  { unfold tiny_before. change (2 ^ sw half) with 1024. fold D. rewrite DD.
    destruct (Z.leb_spec (E - bd f) 0) as [L | L].
    - apply Z.ltb_lt. rewrite MG. destruct (Z.eqb_spec E 0) as [E0 | E0]; [clear - HM SD BP; nia |].
      assert (PE : 2 * 2 ^ (E - 1) <= 2 ^ bd f) by (rewrite <- Z.pow_succ_r by (clear - HE E0; lia); apply Z.pow_le_mono_r; clear - L; lia).
      assert (0 < 2 ^ (E - 1)) by (apply pow2_pos; clear - HE E0; lia). clear - NR PE H0 SD BP DP. nia.
    - apply Z.ltb_ge. rewrite MG. replace (E =? 0) with false by (symmetry; apply Z.eqb_neq; clear - L B1; lia).
      assert (PE : 2 ^ bd f <= 2 ^ (E - 1)) by (apply Z.pow_le_mono_r; clear - L; lia). fold N. clear - NR PE SD BP DP. nia. }
  set (k := N / 2 ^ t) in *. pose proof (Z.div_mod N (2 ^ t) ltac:(clear - TP; lia)) as DM. pose proof (Z.mod_pos_bound N _ TP) as MB. fold k in DM.
  assert (PK : P = if goes_up rm s k (k + 1) (2 ^ t) N (Z.odd k) then k + 1 else k) by reflexivity. assert (PQ : P = quo rm s N t) by reflexivity.
  set (md := N mod 2 ^ t) in *. clearbody md.
  assert (P0 : 0 <= P mod 1024 < 1024) by (apply Z.mod_pos_bound; clear; lia). pose proof (Z.div_mod P 1024 ltac:(clear; lia)) as PDM.
  set (ph := P / 1024) in *. set (pl := P mod 1024) in *. clearbody k. clearbody P. clearbody ph pl.
  assert (K0 : 0 <= k) by (clear - DM MB NR SP TP; nia).
  destruct (Z.le_gt_cases (E - bd f) 0) as [L | L].
  - (* subnormal or zero *)
    assert (PB : 0 <= P <= 1024) by (clear - L C2 C3; lia).
    assert (KB : k <= 1024) by (clear - PK PB; destruct (goes_up _ _ _ _ _ _ _); lia).
    assert (V1 : val half k = k /\ val half (k + 1) = k + 1) by (split; apply val_small; try exact ok_half; change (2 ^ (sw half + 1)) with 2048; clear - KB K0; lia).
    destruct V1 as [V1 V2].
    assert (MAIN : k * D <= Y < (k + 1) * D /\ goes_up rm s (k * D) ((k + 1) * D) 1 Y (Z.odd k) = goes_up rm s k (k + 1) (2 ^ t) N (Z.odd k)).
    { assert (TT : E <> 0 /\ D = 2 ^ t * 2 ^ (E - 1) \/ 4 * N <= 2 ^ t /\ 4 * Y <= D).
      { assert (TE : t = dd f + bd f + 1 - E /\ E <> 0 \/ dd f + 13 <= t /\ (E = 0 \/ E <> 0 /\ E <= dd f - 14)).
        { unfold t, e, div_exp. clear - L EWB B1 B2 D1 BB SWD HE. destruct (Z.ltb_spec 0 (E - bd f)); [lia |]. destruct (Z.ltb_spec (E - bd f) 0); lia. }
        destruct TE as [[TE E0] | [TE E0]]; [left | right].
        - split; [exact E0 |]. unfold D. rewrite QU, TE, <- Z.pow_add_r by (clear - L E0 HE D1; lia). f_equal. clear. ring.
        - assert (PT : 8192 * 2 ^ dd f <= 2 ^ t).
          { replace (8192 * 2 ^ dd f) with (2 ^ (dd f + 13)) by (rewrite Z.pow_add_r by (clear - D1; lia); clear; lia). apply Z.pow_le_mono_r; [clear; lia | exact TE]. }
          split; [clear - NR SD PT; lia |]. rewrite MG, DD. destruct E0 as [-> | [E0 E1]].
          + cbn [Z.eqb]. assert (4096 <= 2 ^ bd f) by (change 4096 with (2 ^ 12); apply Z.pow_le_mono_r; clear - B1; lia). clear - HM SD H0 DP. nia.
          + replace (E =? 0) with false by (symmetry; apply Z.eqb_neq; exact E0). fold N.
            assert (8192 * 2 ^ (E - 1) <= 2 ^ bd f).
            { change 8192 with (2 ^ 13). rewrite <- Z.pow_add_r by (clear - E0 HE; lia). apply Z.pow_le_mono_r; [clear; lia |]. clear - E1 D1 B1. lia. }
            assert (0 < 2 ^ (E - 1)) by (apply pow2_pos; clear - HE E0; lia). clear - NR SD H0 H1 DP BP. nia. }
      destruct TT as [[E0 TE] | [T1 T2]].
      - assert (CP : 0 < 2 ^ (E - 1)) by (apply pow2_pos; clear - HE E0; lia).
        rewrite MG. replace (E =? 0) with false by (symmetry; apply Z.eqb_neq; exact E0). fold N. rewrite TE. split; [clear - DM MB CP; nia |].
        apply goes_up_ratio with (2 ^ (E - 1)); [exact CP | ring | ring | ring].
      - assert (KZ : k = 0) by (clear - DM MB T1 NR SP K0; nia). rewrite KZ in *. split; [clear - T2 YP; lia |]. unfold goes_up.
        assert (Q1 : (0 * D + (0 + 1) * D) * 1 = D) by ring. assert (Q2 : (0 + (0 + 1)) * 2 ^ t = 2 ^ t) by ring. rewrite Q1, Q2.
        replace (D <? 2 * Y) with false by (symmetry; apply Z.ltb_ge; clear - T2 YP; lia). replace (2 ^ t <? 2 * N) with false by (symmetry; apply Z.ltb_ge; clear - T1 NR SP; lia).
        replace (D =? 2 * Y) with false by (symmetry; apply Z.eqb_neq; clear - T2 YP; lia). replace (2 ^ t =? 2 * N) with false by (symmetry; apply Z.eqb_neq; clear - T1 NR SP; lia).
        replace (0 * D * 1 <? Y) with true by (symmetry; apply Z.ltb_lt; clear - YP; lia). replace (0 * 2 ^ t <? N) with true by (symmetry; apply Z.ltb_lt; clear - NR SP; lia).
        replace (D <=? 2 * Y) with false by (symmetry; apply Z.leb_gt; clear - T2 YP; lia). replace (2 ^ t <=? 2 * N) with false by (symmetry; apply Z.leb_gt; clear - T1 NR SP; lia). reflexivity. }
    destruct MAIN as [MB' GU]. exists k. rewrite V1, V2. split; [exact K0 |]. split; [exact MB' |].
    replace (0 <? E - bd f) with false by (symmetry; apply Z.ltb_ge; exact L).
    assert (HP : (if E - bd f <? 0 then 0 else ph) = ph).
    { destruct (Z.ltb_spec (E - bd f) 0) as [L' |]; [| reflexivity]. specialize (C3 L'). clear - C3 PDM P0. lia. }
    rewrite HP, GU, <- PK. rewrite <- V1 at 1. apply FIN; try assumption; try (rewrite V1, ?V2; assumption).
    + clear - PDM PB P0. lia.
    + clear - PDM. lia.
    + rewrite V1, V2, GU. exact PK.
    + intros L'. clear - L L'. lia.
    + intros _. split; [| clear - PB; lia]. apply negb_true_iff, Z.eqb_neq.
      destruct (Z.eq_dec (E - bd f) 0) as [Z0 | Z0]; [| specialize (C3 ltac:(clear - L Z0; lia)); clear - C3 NR SD DP; nia].
      assert (TE : t = Z.succ (dd f)) by (unfold t, e, div_exp; rewrite Z0; cbn [Z.ltb Z.compare]; ring).
      assert (T2 : 2 ^ t = 2 * 2 ^ dd f) by (rewrite TE; apply Z.pow_succ_r; clear - D1; lia).
      intros EQ. assert (NE : N = 1024 * 2 ^ dd f) by (clear - EQ PB NR SD DP; nia).
      pose proof (quo_bound rm s N t 512 TP ltac:(rewrite T2; clear - NE DP; lia)) as QB. rewrite <- PQ in QB. clear - QB EQ NE DP. nia.
  - (* normal *)
    specialize (C1 L). assert (TE : t = dd f) by (unfold t, e, div_exp; apply Z.ltb_lt in L; rewrite L; ring). rewrite TE in *.
    assert (KB : 1024 <= k < 2048) by (clear - DM MB NR SD DP; nia).
    set (g := E - bd f - 1). assert (G0 : 0 <= g) by (unfold g; clear - L; lia). assert (GP : 0 < 2 ^ g) by (apply pow2_pos; exact G0).
    assert (V1 : val half (g * 1024 + k) = k * 2 ^ g) by (apply (val_at half g k ok_half G0); [change (2 ^ (sw half + 1)) with 2048; clear - KB; lia | right; apply KB]).
    assert (V2 : val half (g * 1024 + k + 1) = (k + 1) * 2 ^ g).
    { rewrite <- Z.add_assoc. apply (val_at half g (k + 1) ok_half G0); [change (2 ^ (sw half + 1)) with 2048; clear - KB; lia | right; change (2 ^ sw half) with 1024; clear - KB; lia]. }
    assert (GE : 2 ^ g * D = 2 ^ dd f * 2 ^ (E - 1)).
    { unfold D. rewrite QU, <- !Z.pow_add_r by (clear - G0 B1 D1 L; lia). f_equal. unfold g. ring. }
    assert (CP : 0 < 2 ^ (E - 1)) by (apply pow2_pos; clear - L B1; lia).
    assert (YE : Y = N * 2 ^ (E - 1)) by (rewrite MG; replace (E =? 0) with false by (symmetry; apply Z.eqb_neq; clear - L B1; lia); reflexivity).
    assert (W1 : val half (g * 1024 + k) * D = k * 2 ^ dd f * 2 ^ (E - 1)) by (rewrite V1, <- Z.mul_assoc, GE; ring).
    assert (W2 : val half (g * 1024 + k + 1) * D = (k + 1) * 2 ^ dd f * 2 ^ (E - 1)) by (rewrite V2, <- Z.mul_assoc, GE; ring).
    assert (OD : Z.odd (g * 1024 + k) = Z.odd k) by (replace (g * 1024) with (2 * (g * 512)) by ring; rewrite Z.odd_add_mul_2 || (rewrite Z.add_comm, Z.odd_add_mul_2); reflexivity).
    assert (GU : goes_up rm s (val half (g * 1024 + k) * D) (val half (g * 1024 + k + 1) * D) 1 Y (Z.odd (g * 1024 + k)) = goes_up rm s k (k + 1) (2 ^ dd f) N (Z.odd k)).
    { rewrite OD, W1, W2, YE. apply goes_up_ratio with (2 ^ (E - 1)); [exact CP | ring | ring | ring]. }
    assert (BR : val half (g * 1024 + k) * D <= Y < val half (g * 1024 + k + 1) * D) by (rewrite W1, W2, YE; clear - DM MB CP; nia).
    exists (g * 1024 + k). split; [clear - G0 K0; lia |]. split; [exact BR |]. rewrite GU.
    replace (0 <? E - bd f) with true by (symmetry; apply Z.ltb_lt; exact L).
    assert (PP : (if goes_up rm s k (k + 1) (2 ^ dd f) N (Z.odd k) then g * 1024 + k + 1 else g * 1024 + k) = g * 1024 + P).
    { rewrite PK. destruct (goes_up _ _ _ _ _ _ _); ring. }
    rewrite PP. apply FIN; try assumption.
    + clear - PDM C1 P0 L. lia.
    + unfold g. clear - PDM. lia.
    + clear - G0 K0. lia.
    + rewrite GU. symmetry. exact PP.
    + intros _. f_equal. rewrite W1, YE. destruct (goes_up rm s k (k + 1) (2 ^ dd f) N (Z.odd k)) eqn:U; rewrite PK.
      * apply up_inexact in U; [| exact DP | clear; lia]. clear - U DM MB CP DP.
        destruct (Z.eqb_spec ((k + 1) * 2 ^ dd f) N), (Z.eqb_spec (k * 2 ^ dd f * 2 ^ (E - 1)) (N * 2 ^ (E - 1))); try reflexivity; nia.
      * clear - CP. destruct (Z.eqb_spec (k * 2 ^ dd f) N), (Z.eqb_spec (k * 2 ^ dd f * 2 ^ (E - 1)) (N * 2 ^ (E - 1))); try reflexivity; nia.
    + intros L'. clear - L L'. lia.
Qed.

(** NaN, infinity and zero. *)
Lemma to_half_special : forall H f rm a, sd f -> 0 <= a < 2 ^ width f -> is_nan f a = true \/ is_inf f a = true \/ is_zero f a = true ->
  to_half H f rm a = ieee_cvt f half rm a.
Proof.
  intros H f rm a Hf Ha C. destruct (sd_facts f Hf) as (Ok & D1 & SWD & B1 & B2 & EWB & QU & BB & SP & WD & EW & WP).
  assert (WS : 0 <= width f - 1) by (clear - WD EW SWD D1; lia).
  unfold ieee_cvt. destruct (is_nan f a) eqn:N.
  { unfold to_half. rewrite IsNaN_eq, N, IsSNaN_eq by exact Ok. unfold nan_result. destruct (is_snan f a); reflexivity. }
  assert (SG : Z.shiftr a (width f - 1) = Z.b2z (sign f a)).
  { destruct (split_sign f a Ok Ha) as [X _]. rewrite X at 1. unfold with_sign. rewrite Z.shiftr_div_pow2 by exact WS.
    assert (P : 0 < 2 ^ (width f - 1)) by (apply pow2_pos; exact WS). rewrite Z.div_add_l by (clear - P; lia).
    rewrite Z.div_small by (apply Z.mod_pos_bound; exact P). ring. }
  destruct (is_inf f a) eqn:I.
  { unfold to_half. rewrite IsNaN_eq, N, IsInf_eq, I, SG by exact Ok. destruct (sign f a); reflexivity. }
  destruct C as [C | [C | ZA]]; [discriminate C | discriminate C |].
  unfold to_half. rewrite IsNaN_eq, N, IsInf_eq, I by exact Ok. destruct (magnitude_zero f a ZA) as [MZ UZ].
  unfold round_rat. rewrite UZ. cbn [Z.eqb].
  assert (AZ : a = with_sign f (sign f a) 0).
  { destruct (pattern_of f a Ok Ha) as (s' & E' & F' & HE & HF & EA & XS & XE & XF & XR). rewrite XS. rewrite EA. f_equal.
    unfold is_zero in ZA. rewrite XE, XF in ZA. apply andb_true_iff in ZA. rewrite !Z.eqb_eq in ZA. destruct ZA as [-> ->]. ring. }
  clear - AZ Hf. destruct (sign f a); destruct Hf as [-> | ->]; rewrite AZ; reflexivity.
Qed.
Lemma special_of : forall f a, is_nan f a = false -> is_inf f a = false -> special f a = false.
Proof. intros f a N I. unfold is_nan in N. unfold is_inf in I. destruct (special f a); [| reflexivity]. destruct (frac f a =? 0); discriminate. Qed.

(** The conversions: right except for the underflow flag of a result rounded up to the smallest normal number. *)
Lemma to_half_nearly : forall H f rm a, host_ok H -> sd f -> 0 <= rm <= 3 -> 0 <= a < 2 ^ width f ->
  nearly half (sign f a) (to_half H f rm a) (ieee_cvt f half rm a).
Proof.
  intros H f rm a HO Hf Hrm Ha. destruct (sd_facts f Hf) as (Ok & D1 & SWD & B1 & B2 & EWB & QU & BB & SP & WD & EW & WP).
  assert (EQ : forall x y, x = y -> nearly half (sign f a) x y) by (intros x y ->; split; [reflexivity | left; reflexivity]).
  destruct (is_nan f a) eqn:N; [apply EQ, to_half_special; [exact Hf | exact Ha | left; exact N] |].
  destruct (is_inf f a) eqn:I; [apply EQ, to_half_special; [exact Hf | exact Ha | right; left; exact I] |].
  destruct (is_zero f a) eqn:ZA; [apply EQ, to_half_special; [exact Hf | exact Ha | right; right; exact ZA] |].
  pose proof (special_of f a N I) as SA. unfold ieee_cvt. rewrite N, I.
  pose proof (to_half_number H f rm a HO Hf Hrm Ha SA ZA) as NR. pose proof (magnitude_pos f a Ok ZA) as YP.
  unfold round_rat. rewrite (units_zero f a Ok), ZA.
  replace (units f a <? 0) with (sign f a) by (unfold units; clear - YP; destruct (sign f a); symmetry; [apply Z.ltb_lt | apply Z.ltb_ge]; lia).
  replace (Z.abs (units f a)) with (magnitude f a) by (unfold units; clear - YP; destruct (sign f a); lia).
  apply (narrowed_nearly f half ok_half); [clear - QU B1 D1; lia | exact YP | exact NR].
Qed.
