(** Rounding twice: to a wide format, then to a narrow one. *)
From Coq Require Import ZArith Bool List Lia.
From Verif Require Import Bits IeeeSpec FpSpec FpProofs FpCvt FpWiden FarithProofs RoundProofs.
Local Open Scope Z_scope.

Lemma goes_up_scale : forall rm s lo hi r X o D c, 0 < D -> 0 < c ->
  goes_up rm s (lo * D) (hi * D) (r * c) (X * (D * c)) o = goes_up rm s lo hi r X o.
Proof.
  intros rm s lo hi r X o D c HD HC. assert (P : 0 < D * c) by nia. unfold goes_up.
  replace ((lo * D + hi * D) * (r * c)) with ((lo + hi) * r * (D * c)) by ring. replace (lo * D * (r * c)) with (lo * r * (D * c)) by ring.
  replace (2 * (X * (D * c))) with (2 * X * (D * c)) by ring. set (k := D * c) in *. clearbody k.
  rewrite <- !Z.mul_assoc.
  assert (L : forall a b, (a * k <? b * k) = (a <? b)) by (intros a b; destruct (Z.ltb_spec (a * k) (b * k)), (Z.ltb_spec a b); nia).
  assert (E : forall a b, (a * k =? b * k) = (a =? b)) by (intros a b; destruct (Z.eqb_spec (a * k) (b * k)), (Z.eqb_spec a b); nia).
  assert (M : forall a b, (a * k <=? b * k) = (a <=? b)) by (intros a b; destruct (Z.leb_spec (a * k) (b * k)), (Z.leb_spec a b); nia).
  rewrite !Z.mul_assoc, L, L, E, M. reflexivity.
Qed.

(** P is the pattern X / r rounds to, lo the one below. *)
Definition rounded (f : fmt) (rm : Z) (s : bool) (r X lo P : Z) : Prop :=
  0 <= lo /\ val f lo * r <= X < val f (lo + 1) * r /\
  P = if goes_up rm s (val f lo) (val f (lo + 1)) r X (Z.odd lo) then lo + 1 else lo.

Lemma up_inexact : forall rm s lo hi r X o, 0 < r -> lo < hi -> goes_up rm s lo hi r X o = true -> lo * r < X.
Proof.
  intros rm s lo hi r X o Hr HL U. unfold goes_up in U.
  destruct rm as [| rm |]; [| destruct rm as [[|[]|]|[[]|[]|]|] |]; try discriminate U; try (apply Z.leb_le in U; nia);
    try (apply andb_true_iff in U; destruct U as [_ U]; apply Z.ltb_lt in U; exact U).
  apply orb_true_iff in U. rewrite andb_true_iff, Z.ltb_lt, Z.eqb_eq in U. nia.
Qed.

Lemma rounded_nonneg : forall f rm s r X lo P, rounded f rm s r X lo P -> 0 <= P.
Proof. intros f rm s r X lo P (L & _ & ->). destruct (goes_up _ _ _ _ _ _ _); lia. Qed.

Lemma rounded_mono : forall f rm s r X lo P Q, okf f -> 0 < r -> rounded f rm s r X lo P -> 0 <= Q ->
  (val f Q * r <= X -> val f Q <= val f P) /\ (X <= val f Q * r -> val f P <= val f Q).
Proof.
  intros f rm s r X lo P Q Ok Hr (HL & (B1 & B2) & ->) HQ. pose proof (val_step f lo Ok HL) as ST.
  set (o := Z.odd lo). destruct (goes_up rm s (val f lo) (val f (lo + 1)) r X o) eqn:U.
  - apply up_inexact in U; [| exact Hr | lia]. split; intros H.
    + assert (val f Q < val f (lo + 1)) by nia. lia.
    + assert (L : val f lo < val f Q) by nia. apply val_lt in L; [| assumption ..].
      destruct (Z.eq_dec Q (lo + 1)) as [-> | N]; [lia |]. pose proof (val_mono f (lo + 1) Q Ok ltac:(lia)). lia.
  - split; intros H; [| nia].
    assert (L : val f Q < val f (lo + 1)) by nia. apply val_lt in L; [| assumption | exact HQ | lia].
    destruct (Z.eq_dec Q lo) as [-> | N]; [lia |]. pose proof (val_mono f Q lo Ok ltac:(lia)). lia.
Qed.

(** A representable number is rounded to itself. *)
Lemma rounded_exact : forall f rm s r X lo P Q, okf f -> 0 < r -> rounded f rm s r X lo P -> 0 <= Q -> X = val f Q * r ->
  P = Q /\ lo = Q.
Proof.
  intros f rm s r X lo P Q Ok Hr R HQ E. pose proof R as (HL & (B1 & B2) & EP).
  assert (L1 : val f lo <= val f Q) by nia. assert (L2 : val f Q < val f (lo + 1)) by nia.
  apply val_le in L1; [| assumption ..]. apply val_lt in L2; [| assumption | exact HQ | lia]. assert (lo = Q) by lia. split; [| assumption].
  pose proof (val_step f lo Ok HL) as ST. destruct (goes_up rm s (val f lo) (val f (lo + 1)) r X (Z.odd lo)) eqn:U; [| lia].
  apply up_inexact in U; [| exact Hr | lia]. exfalso. subst lo. lia.
Qed.

Lemma floor_unique : forall f r X lo lo', okf f -> 0 < r -> 0 <= lo -> 0 <= lo' ->
  val f lo * r <= X < val f (lo + 1) * r -> val f lo' * r <= X < val f (lo' + 1) * r -> lo = lo'.
Proof.
  intros f r X lo lo' Ok Hr H H' B B'.
  assert (A : val f lo < val f (lo' + 1)) by nia. assert (A' : val f lo' < val f (lo + 1)) by nia.
  apply val_lt in A; [| assumption | assumption | lia]. apply val_lt in A'; [| assumption | assumption | lia]. lia.
Qed.

Lemma packed_exact : forall f rm s P tiny, P < top f -> packed f rm s P true tiny = (with_sign f s P, 0).
Proof. intros f rm s P tiny H. unfold packed. replace (top f <=? P) with false by (symmetry; apply Z.leb_gt; exact H). reflexivity. Qed.

Lemma round_to_rep : forall f rm s p r Q, okf f -> 0 < p -> 0 < r -> 0 <= Q < top f -> p * 2 ^ quantum f = val f Q * r ->
  round_to f rm s p r = (with_sign f s Q, 0).
Proof.
  intros f rm s p r Q Ok Hp Hr HQ E. destruct (round_to_char f rm s p r Ok Hp Hr) as (lo & tiny & HL & B & -> & _).
  destruct (rounded_exact f rm s r _ lo _ Q Ok Hr (conj HL (conj B eq_refl)) (proj1 HQ) E) as [-> ->].
  rewrite E, Z.eqb_refl. apply packed_exact. apply HQ.
Qed.

Lemma val_min : forall f, okf f -> val f (2 ^ sw f) = 2 ^ sw f /\ 0 < 2 ^ sw f.
Proof.
  intros f Ok. pose proof Ok as [He Hs]. assert (0 < 2 ^ sw f) by (apply pow2_pos; lia). split; [| assumption].
  replace (2 ^ sw f) with (0 * 2 ^ sw f + 2 ^ sw f) at 1 by ring. rewrite val_at; [ring | exact Ok | lia | | left; reflexivity].
  rewrite Z.pow_add_r by lia. lia.
Qed.

(** ** Two formats *)
Section Two.
Variables f g : fmt.
Hypothesis Of : okf f.
Hypothesis Og : okf g.
Hypothesis SW : sw g + 2 <= sw f + 1.
Hypothesis QU : quantum g < quantum f.
Let D := 2 ^ (quantum f - quantum g).

Lemma D_pos : 0 < D.
Proof. apply pow2_pos. lia. Qed.

Lemma embed : forall P, 0 <= P -> exists Q, 0 <= Q /\ val f Q = val g P * D.
Proof.
  intros P HP. destruct (val_succ g P Og HP) as (j & k & _ & J & K & _ & -> & _).
  destruct (representable f k (j + (quantum f - quantum g)) Of) as (Q & HQ & E); [| lia |].
  - split; [lia |]. apply Z.lt_le_trans with (2 ^ (sw g + 1)); [lia |]. apply Z.pow_le_mono_r; lia.
  - exists Q. split; [exact HQ |]. rewrite E, Z.pow_add_r by lia. unfold D. ring.
Qed.
Lemma embed_mid : forall P, 0 <= P -> exists Q, 0 <= Q /\ 2 * val f Q = (val g P + val g (P + 1)) * D.
Proof.
  intros P HP. destruct (val_succ g P Og HP) as (j & k & _ & J & K & _ & -> & ->).
  destruct (representable f (2 * k + 1) (j + (quantum f - quantum g - 1)) Of) as (Q & HQ & E); [| lia |].
  - split; [lia |]. apply Z.lt_le_trans with (2 ^ (sw g + 2)).
    + replace (sw g + 2) with (Z.succ (sw g + 1)) by ring. rewrite Z.pow_succ_r; [lia |]. destruct Og; lia.
    + apply Z.pow_le_mono_r; lia.
  - exists Q. split; [exact HQ |]. rewrite E, Z.pow_add_r by lia. unfold D. replace (quantum f - quantum g) with (Z.succ (quantum f - quantum g - 1)) at 2 by ring.
    rewrite Z.pow_succ_r by lia. ring.
Qed.

(** Rounding X / r to f (giving Y quanta) and then to g, or directly to g. *)
Lemma twice : forall rm s r X lf Pf ly Py lx Px, 0 <= rm <= 3 -> 0 < r -> rounded f rm s r X lf Pf -> let Y := val f Pf in
  0 <= ly -> val g ly * D <= Y < val g (ly + 1) * D -> Py = (if goes_up rm s (val g ly * D) (val g (ly + 1) * D) 1 Y (Z.odd ly) then ly + 1 else ly) ->
  0 <= lx -> val g lx * D * r <= X < val g (lx + 1) * D * r -> Px = (if goes_up rm s (val g lx * D) (val g (lx + 1) * D) r X (Z.odd lx) then lx + 1 else lx) ->
  (rm = 0 -> forall P, 0 <= P -> 2 * Y = (val g P + val g (P + 1)) * D -> Y * r = X) -> Py = Px.
Proof.
  intros rm s r X lf Pf ly Py lx Px Hrm Hr RF Y Hly By -> Hlx Bx -> MID. pose proof D_pos as DP.
  destruct (embed lx Hlx) as (Q1 & HQ1 & E1). destruct (embed (lx + 1) ltac:(lia)) as (Q2 & HQ2 & E2).
  destruct (rounded_mono f rm s r X lf Pf Q1 Of Hr RF HQ1) as [M1 _]. destruct (rounded_mono f rm s r X lf Pf Q2 Of Hr RF HQ2) as [_ M2].
  fold Y in M1, M2. rewrite E1 in M1. rewrite E2 in M2. specialize (M1 ltac:(lia)). specialize (M2 ltac:(lia)).
  pose proof (val_step g lx Og Hlx) as ST. pose proof (val_step g (lx + 1) Og ltac:(lia)) as ST1.
  (* ly is lx or lx + 1 *)
  assert (LY : ly = lx /\ Y < val g (lx + 1) * D \/ ly = lx + 1 /\ Y = val g (lx + 1) * D).
  { destruct (Z.eq_dec Y (val g (lx + 1) * D)) as [EY | NY].
    - right. split; [| exact EY]. apply (floor_unique g 1 (val g (lx + 1)) ly (lx + 1) Og); try lia. rewrite EY in By. nia.
    - left. split; [| lia]. assert (A : val g ly < val g (lx + 1)) by nia. assert (A' : val g lx < val g (ly + 1)) by nia.
      apply val_lt in A; [| assumption | assumption | lia]. apply val_lt in A'; [| assumption | assumption | lia]. lia. }
  pose proof RF as (HLF & (BF1 & BF2) & PF). pose proof (val_step f lf Of HLF) as STF.
  assert (C : rm = 0 \/ rm = 1 \/ rm = 2 \/ rm = 3) by lia. destruct C as [-> | C].
  - destruct (embed_mid lx Hlx) as (Q3 & HQ3 & E3). destruct (rounded_mono f 0 s r X lf Pf Q3 Of Hr RF HQ3) as [M3 M4]. fold Y in M3, M4.
    assert (XM : (val g lx * D + val g (lx + 1) * D) * r = 2 * (val f Q3 * r)) by (clear - E3; nia).
    assert (YM : (val g lx * D + val g (lx + 1) * D) * 1 = 2 * val f Q3) by (clear - E3; nia).
    specialize (MID eq_refl lx Hlx). rewrite <- E3 in MID. unfold goes_up.
    destruct LY as [[-> YL] | [-> YE]].
    + rewrite XM, YM. set (V := val f Q3) in *. clearbody V.
      replace (2 * (V * r) <? 2 * X) with (2 * V <? 2 * Y).
      2:{ clear - M3 M4 MID Hr. destruct (Z.ltb_spec (2 * V) (2 * Y)), (Z.ltb_spec (2 * (V * r)) (2 * X)); try reflexivity; nia. }
      replace (2 * (V * r) =? 2 * X) with (2 * V =? 2 * Y); [reflexivity |].
      clear - M3 M4 MID Hr. destruct (Z.eqb_spec (2 * V) (2 * Y)), (Z.eqb_spec (2 * (V * r)) (2 * X)); try reflexivity; nia.
    + assert (V : val f Q3 < Y) by nia. assert (VX : val f Q3 * r < X) by nia.
      replace ((val g lx * D + val g (lx + 1) * D) * r <? 2 * X) with true by (symmetry; apply Z.ltb_lt; lia). cbn [orb].
      rewrite YE. set (u := val g (lx + 1)) in *. set (v := val g (lx + 1 + 1)) in *.
      replace ((u * D + v * D) * 1 <? 2 * (u * D)) with false by (symmetry; apply Z.ltb_ge; nia).
      replace ((u * D + v * D) * 1 =? 2 * (u * D)) with false by (symmetry; apply Z.eqb_neq; nia). reflexivity.
  - set (up := match rm with 2 => s | 3 => negb s | _ => false end).
    assert (GU : forall lo hi r' X' o, goes_up rm s lo hi r' X' o = up && (lo * r' <? X')).
    { intros lo hi r' X' o. destruct C as [-> | [-> | ->]]; reflexivity. }
    rewrite !GU in *. destruct up; cbn [andb] in *.
    + (* upwards: X <= Y r *)
      assert (XY : X <= Y * r).
      { unfold Y. destruct (Z.ltb_spec (val f lf * r) X); subst Pf; lia. }
      destruct LY as [[-> YL] | [-> YE]].
      * destruct (Z.ltb_spec (val g lx * D * 1) Y), (Z.ltb_spec (val g lx * D * r) X); try reflexivity; exfalso; [| nia].
        (* X is on the grid *) assert (EX : X = val f Q1 * r) by (rewrite E1; lia).
        destruct (rounded_exact f rm s r X lf Pf Q1 Of Hr RF HQ1 EX) as [P1 _]. unfold Y in H. rewrite P1, E1 in H. lia.
      * rewrite YE. replace (val g (lx + 1) * D * 1 <? val g (lx + 1) * D) with false by (symmetry; apply Z.ltb_ge; lia).
        destruct (Z.ltb_spec (val g lx * D * r) X); [reflexivity | exfalso].
        assert (EX : X = val f Q1 * r) by (rewrite E1; lia). destruct (rounded_exact f rm s r X lf Pf Q1 Of Hr RF HQ1 EX) as [P1 _].
        unfold Y in YE. rewrite P1, E1 in YE. nia.
    + destruct LY as [[-> YL] | [-> YE]]; [reflexivity |]. exfalso. unfold Y in YE. rewrite PF in YE.
      assert (val f lf * r < val g (lx + 1) * D * r) by lia. nia.
Qed.

(** The same in terms of [round_to]: g-rounding the f-rounding.  [tiny_before]: the number to be
    narrowed is below the normal numbers. *)
Definition tiny_before (Y : Z) : bool := Y <? 2 ^ sw g * D.

Lemma narrow_char : forall rm s Y, 0 < Y -> exists ly, 0 <= ly /\ val g ly * D <= Y < val g (ly + 1) * D /\
  (let P := if goes_up rm s (val g ly * D) (val g (ly + 1) * D) 1 Y (Z.odd ly) then ly + 1 else ly in
   exists tiny, round_to g rm s Y (2 ^ quantum f) = packed g rm s P (val g ly * D =? Y) tiny /\
   (tiny_before Y = false -> tiny = false) /\ (tiny_before Y = true -> tiny = true \/ P = 2 ^ sw g)).
Proof.
  intros rm s Y HY. pose proof D_pos as DP. pose proof (quantum_pos g Og) as QG.
  assert (QP : 0 < 2 ^ quantum f) by (apply pow2_pos; lia). assert (QP' : 0 < 2 ^ quantum g) by (apply pow2_pos; lia).
  assert (QD : 2 ^ quantum f = D * 2 ^ quantum g) by (unfold D; rewrite <- Z.pow_add_r by lia; f_equal; ring).
  destruct (round_to_char g rm s Y (2 ^ quantum f) Og HY QP) as (ly & tiny & HL & B & E & T1 & T2). exists ly. split; [exact HL |].
  rewrite QD in B, T1, T2. split; [clear - B QP'; split; nia |].
  assert (U : goes_up rm s (val g ly) (val g (ly + 1)) (2 ^ quantum f) (Y * 2 ^ quantum g) (Z.odd ly) = goes_up rm s (val g ly * D) (val g (ly + 1) * D) 1 Y (Z.odd ly)).
  { rewrite QD. rewrite <- (goes_up_scale rm s (val g ly * D) (val g (ly + 1) * D) 1 Y (Z.odd ly) 1 (2 ^ quantum g)) by lia.
    rewrite !Z.mul_1_r, !Z.mul_1_l. unfold goes_up.
    replace ((val g ly + val g (ly + 1)) * (D * 2 ^ quantum g)) with ((val g ly * D + val g (ly + 1) * D) * 2 ^ quantum g) by ring.
    replace (val g ly * (D * 2 ^ quantum g)) with (val g ly * D * 2 ^ quantum g) by ring. reflexivity. }
  rewrite QD in E, U. rewrite U in T2, E. cbv zeta in *. exists tiny. split; [rewrite QD, E; f_equal | split].
  - clear - QP'. destruct (Z.eqb_spec (val g ly * (D * 2 ^ quantum g)) (Y * 2 ^ quantum g)), (Z.eqb_spec (val g ly * D) Y); nia.
  - unfold tiny_before. intros T. apply Z.ltb_ge in T. apply T1. clear - T QP'. nia.
  - unfold tiny_before. intros T. apply Z.ltb_lt in T. apply T2. clear - T QP'. nia.
Qed.

(** The outcome of narrowing Y with tininess detected before rounding, as the simulator does it. *)
Definition narrowed (rm : Z) (s : bool) (Y : Z) (out : Z * Z) : Prop :=
  exists ly, 0 <= ly /\ val g ly * D <= Y < val g (ly + 1) * D /\
    out = packed g rm s (if goes_up rm s (val g ly * D) (val g (ly + 1) * D) 1 Y (Z.odd ly) then ly + 1 else ly) (val g ly * D =? Y) (tiny_before Y).

Lemma packed_flags : forall rm s P e t, snd (packed g rm s P e t) = fOF + fNX /\ top g <= P \/ P < top g /\
  snd (packed g rm s P e t) = (if e then 0 else if t then fUF + fNX else fNX).
Proof.
  intros. unfold packed. destruct (Z.leb_spec (top g) P); [left | right]; split; try reflexivity; assumption.
Qed.
Lemma packed_value : forall rm s P e t e' t', fst (packed g rm s P e t) = fst (packed g rm s P e' t').
Proof. intros. unfold packed. destruct (top g <=? P); reflexivity. Qed.

(** Same value; flags equal, except UF when the rounded result is the smallest normal number. *)
Definition nearly (s : bool) (out spec : Z * Z) : Prop :=
  fst out = fst spec /\ (snd out = snd spec \/ fst out = with_sign g s (2 ^ sw g) /\ snd out = fUF + fNX /\ snd spec = fNX).

Lemma narrowed_nearly : forall rm s Y out, 0 < Y -> narrowed rm s Y out -> nearly s out (round_to g rm s Y (2 ^ quantum f)).
Proof.
  intros rm s Y out HY (ly & HL & B & ->). destruct (narrow_char rm s Y HY) as (ly' & HL' & B' & tiny & -> & T1 & T2).
  pose proof D_pos as DP.
  assert (ly' = ly).
  { assert (A : val g ly < val g (ly' + 1)) by nia. assert (A' : val g ly' < val g (ly + 1)) by nia.
    apply val_lt in A; [| assumption | assumption | lia]. apply val_lt in A'; [| assumption | assumption | lia]. lia. }
  subst ly'. clear HL' B'. set (P := if goes_up _ _ _ _ _ _ _ then _ else _) in *. split; [apply packed_value |].
  destruct (tiny_before Y).
  - destruct (T2 eq_refl) as [-> | EP]; [left; reflexivity |]. destruct tiny; [left; reflexivity |].
    unfold packed. destruct (top g <=? P); cbn [fst snd]; [left; reflexivity |]. destruct (val g ly * D =? Y); [left; reflexivity | right].
    rewrite EP. repeat split.
  - rewrite (T1 eq_refl). left. reflexivity.
Qed.

(** f-rounding, then narrowing; the flags when tiny results are not
    rounded onto the grid of g. *)
Lemma twice_nearly : forall rm s p r, 0 <= rm <= 3 -> 0 < p -> 0 < r ->
  let X := p * 2 ^ quantum f in
  2 ^ sw f * r <= X -> X < val f (top f - 1) * r ->
  let Y := magnitude f (fst (round_to f rm s p r)) in
  (rm = 0 -> forall P, 0 <= P -> 2 * Y = (val g P + val g (P + 1)) * D -> Y * r = X) ->
  sign f (fst (round_to f rm s p r)) = s /\ is_nan f (fst (round_to f rm s p r)) = false /\ is_inf f (fst (round_to f rm s p r)) = false /\ 0 < Y /\
  forall out, narrowed rm s Y out -> fst out = fst (round_to g rm s p r) /\
    ((X < 2 ^ sw g * D * r -> forall P, 0 <= P -> Y = val g P * D -> Y * r = X) ->
     nearly s (fst out, Z.lor (snd (round_to f rm s p r)) (snd out)) (round_to g rm s p r)).
Proof.
  intros rm s p r Hrm Hp Hr X LB UB Y MID. pose proof D_pos as DP. pose proof Of as [Hef Hsf].
  destruct (round_to_char f rm s p r Of Hp Hr) as (lf & tf & HLF & BF & EF & TF & _). fold X in BF, EF, TF.
  set (PF := if goes_up _ _ _ _ _ _ _ then _ else _) in *.
  assert (RF : rounded f rm s r X lf PF) by (split; [exact HLF | split; [exact BF | reflexivity]]).
  destruct (top_range f Of) as (TR1 & TR2 & TR3). assert (SP : 0 < 2 ^ sw f) by (apply pow2_pos; lia).
  assert (PFB : PF < top f).
  { destruct (rounded_mono f rm s r X lf PF (top f - 1) Of Hr RF ltac:(lia)) as [_ M]. specialize (M ltac:(lia)).
    apply val_le in M; [lia | exact Of | exact (rounded_nonneg _ _ _ _ _ _ _ RF) | lia]. }
  pose proof (rounded_nonneg _ _ _ _ _ _ _ RF) as PF0.
  assert (EF' : round_to f rm s p r = (with_sign f s PF, if val f lf * r =? X then 0 else fNX)).
  { rewrite EF. unfold packed. rewrite (TF LB). replace (top f <=? PF) with false by (symmetry; apply Z.leb_gt; exact PFB). reflexivity. }
  assert (YV : Y = val f PF) by (unfold Y; rewrite EF'; cbn [fst]; apply val_magnitude; [exact Of | lia]).
  assert (YP : 2 ^ sw f <= Y).
  { destruct (val_min f Of) as [V _].
    destruct (rounded_mono f rm s r X lf PF (2 ^ sw f) Of Hr RF ltac:(lia)) as [M _]. rewrite V in M. rewrite YV. apply M. exact LB. }
  destruct (number_of f s PF Of ltac:(lia)) as (R1 & R2). 
  pose proof (number_of f s PF Of ltac:(lia)) as NUM.
  assert (FLD : sign f (with_sign f s PF) = s /\ special f (with_sign f s PF) = false).
  { pose proof (Z.div_mod PF (2 ^ sw f) ltac:(lia)) as DM. pose proof (Z.mod_pos_bound PF _ SP) as M.
    assert (WW : 2 ^ (width f - 1) = 2 ^ ew f * 2 ^ sw f) by (rewrite <- Z.pow_add_r by lia; f_equal; unfold width; lia).
    assert (TT : top f = (2 ^ ew f - 1) * 2 ^ sw f) by reflexivity.
    assert (Q : 0 <= PF / 2 ^ sw f < 2 ^ ew f - 1) by (split; [apply Z.div_pos; lia | apply Z.div_lt_upper_bound; lia]).
    assert (Q' : 0 <= PF / 2 ^ sw f < 2 ^ ew f) by (clear - Q; lia).
    destruct (fields f s _ _ Of Q' M) as (F1 & F2 & _). rewrite (Z.mul_comm (PF / _)), <- DM in F1, F2.
    split; [exact F1 |]. unfold special. rewrite F2. apply Z.eqb_neq. lia. }
  destruct FLD as [FS SPC].
  rewrite EF'. cbn [fst snd]. split; [exact FS |]. split; [unfold is_nan; rewrite SPC; reflexivity |]. split; [unfold is_inf; rewrite SPC; reflexivity |].
  split; [lia |]. intros out (ly & HL & B & ->).
  destruct (round_to_char g rm s p r Og Hp Hr) as (lx & tx & HLX & BX & EX & TX1 & TX2).
  set (Xg := p * 2 ^ quantum g) in *. assert (XX : X = Xg * D).
  { unfold X, Xg, D. rewrite <- Z.mul_assoc, <- Z.pow_add_r; [f_equal; f_equal; ring | | lia]. pose proof (quantum_pos g Og). lia. }
  assert (UX : goes_up rm s (val g lx) (val g (lx + 1)) r Xg (Z.odd lx) = goes_up rm s (val g lx * D) (val g (lx + 1) * D) r X (Z.odd lx)).
  { rewrite <- (goes_up_scale rm s (val g lx) (val g (lx + 1)) r Xg (Z.odd lx) D 1) by lia. rewrite XX, !Z.mul_1_r. reflexivity. }
  rewrite UX in EX, TX2. cbv zeta in EX, TX2.
  assert (EPX := twice rm s r X lf PF ly _ lx _ Hrm Hr RF HL ltac:(rewrite <- YV; exact B) eq_refl HLX ltac:(rewrite XX; clear - BX DP; nia) eq_refl
                  ltac:(rewrite <- YV; exact MID)).
  cbv zeta in EPX. rewrite <- YV in EPX. rewrite <- EPX in EX, TX2. clear EPX.
  set (P := if goes_up rm s (val g ly * D) (val g (ly + 1) * D) 1 Y (Z.odd ly) then ly + 1 else ly) in *.
  rewrite EX. split; [apply packed_value |]. intros H2. split; cbn [fst snd]; [apply packed_value |].
  assert (EXA : (val g lx * r =? Xg) = (val g lx * D * r =? X)).
  { rewrite XX. clear - DP. destruct (Z.eqb_spec (val g lx * r) Xg), (Z.eqb_spec (val g lx * D * r) (Xg * D)); nia. }
  rewrite EXA. unfold packed. destruct (top g <=? P); cbn [fst snd].
  { left. destruct (val f lf * r =? X); reflexivity. }
  destruct (Z.eqb_spec (val g lx * D * r) X) as [GX | GX].
  - (* exact *) destruct (embed lx HLX) as (Q & HQ & EQ). assert (XQ : X = val f Q * r) by (rewrite EQ; symmetry; exact GX).
    destruct (rounded_exact f rm s r X lf PF Q Of Hr RF HQ XQ) as [P1 P2]. rewrite P2, <- XQ, Z.eqb_refl.
    assert (YQ : Y = val g lx * D) by (rewrite YV, P1; exact EQ).
    replace (val g ly * D =? Y) with true; [left; reflexivity |]. symmetry. apply Z.eqb_eq.
    assert (L : ly = lx); [| subst ly; symmetry; exact YQ].
    pose proof (val_step g lx Og HLX) as ST. clear - B YQ DP ST Og HL HLX. apply (floor_unique g 1 (val g lx) ly lx Og); [lia | exact HL | exact HLX | nia | lia].
  - assert (NE : val g ly * D = Y -> X <> Y * r).
    { intros GY EY. apply GX. destruct (embed ly HL) as (Q & HQ & EQ).
      assert (L : ly = lx); [| subst ly; rewrite GY; symmetry; exact EY]. apply (floor_unique g r Xg ly lx Og Hr HL HLX); [| exact BX].
      assert (XE : Xg = val g ly * r) by (rewrite <- GY in EY; clear - EY XX DP; nia). pose proof (val_step g ly Og HL) as ST. clear - XE ST Hr. nia. }
    assert (FX : val f lf * r = X -> Y * r = X).
    { intros E. destruct (rounded_exact f rm s r X lf PF lf Of Hr RF HLF (eq_sym E)) as [P1 _]. rewrite YV, P1. exact E. }
    destruct (val_min g Og) as [V MN].
    destruct (Z.le_gt_cases (2 ^ sw g * D * r) X) as [BIG | SMALL].
    + rewrite (TX1 ltac:(rewrite XX in BIG; clear - BIG DP; nia)). left.
      assert (TB : tiny_before Y = false).
      { unfold tiny_before. apply Z.ltb_ge. destruct (embed (2 ^ sw g) (Z.lt_le_incl _ _ MN)) as (Q & HQ & EQ).
        destruct (rounded_mono f rm s r X lf PF Q Of Hr RF HQ) as [M _]. rewrite EQ, V in M. rewrite YV. apply M. exact BIG. }
      rewrite TB. destruct (Z.eqb_spec (val g ly * D) Y) as [GY | GY]; [| destruct (val f lf * r =? X); reflexivity].
      destruct (Z.eqb_spec (val f lf * r) X) as [E | E]; [| reflexivity]. exfalso. apply (NE GY). symmetry. apply FX. exact E.
    + specialize (H2 SMALL). assert (NG : val g ly * D <> Y).
      { intros GY. apply (NE GY). symmetry. apply (H2 ly HL). symmetry. exact GY. }
      replace (val g ly * D =? Y) with false by (symmetry; apply Z.eqb_neq; exact NG).
      assert (TB : tiny_before Y = true).
      { unfold tiny_before. apply Z.ltb_lt. destruct (embed (2 ^ sw g) (Z.lt_le_incl _ _ MN)) as (Q & HQ & EQ).
        destruct (rounded_mono f rm s r X lf PF Q Of Hr RF HQ) as [_ M]. rewrite EQ, V, <- YV in M. specialize (M (Z.lt_le_incl _ _ SMALL)).
        assert (NY : Y <> 2 ^ sw g * D); [| clear - NY M; lia]. intros EY.
        assert (H : Y * r = X) by (apply (H2 (2 ^ sw g) (Z.lt_le_incl _ _ MN)); rewrite V; exact EY). rewrite EY in H. clear - H SMALL. lia. }
      rewrite TB. assert (LF : Z.lor (if val f lf * r =? X then 0 else fNX) (fUF + fNX) = fUF + fNX) by (destruct (val f lf * r =? X); reflexivity).
      rewrite LF. destruct (TX2 ltac:(rewrite XX in SMALL; clear - SMALL DP; nia)) as [-> | EP]; [left; reflexivity |].
      destruct tx; [left; reflexivity | right]. rewrite EP. repeat split.
Qed.
End Two.
