(** The register-by-register loops compute the element-by-element result. *)
From Coq Require Import ZArith Bool List Lia.
From Verif Require Import Bits Memory VelemSpec VcfgModel VelemModel.
Import ListNotations.
Local Open Scope Z_scope.

(** The element containing byte [a]. *)
Definition idx (vb wd vd a : Z) : Z := (a - vd * vb) / wd.
Lemma idx_spec vb wd vd a j : 1 <= wd -> vd * vb + j * wd <= a < vd * vb + (j + 1) * wd -> idx vb wd vd a = j.
Proof. intros W H. unfold idx. symmetry. apply (Z.div_unique _ _ _ (a - vd * vb - j * wd)); lia. Qed.
Lemma idx_bounds vb wd vd a : 1 <= wd -> vd * vb + idx vb wd vd a * wd <= a < vd * vb + (idx vb wd vd a + 1) * wd.
Proof. intros W. unfold idx. pose proof (Z.div_mod (a - vd * vb) wd ltac:(lia)). pose proof (Z.mod_pos_bound (a - vd * vb) wd ltac:(lia)). nia. Qed.

Section loops.
Context (body : mem -> Z -> option (option Z * bool)) (vb wd vd epv n : Z) (rf0 : mem) (st : Z).
Context (Hwd : 1 <= wd) (Hepv : 1 <= epv) (Hvb : vb = epv * wd) (Hst : 0 <= st).
(** The result at element [j] computed from the initial registers. *)
Definition F (j : Z) : option Z := match body rf0 j with Some (v, _) => v | None => None end.
Definition S (j : Z) : bool := match body rf0 j with Some (_, s) => s | None => false end.
Local Notation idx := (idx vb wd vd).
(** The register file after the elements in [st, e). *)
Definition upto (e : Z) : mem := fun a =>
  let j := idx a in
  if (st <=? j) && (j <? e) then
    match F j with Some v => v / 2 ^ (8 * (a - (vd * vb + j * wd))) mod 256 | None => rf0 a end
  else rf0 a.
Context (Hdef : forall j, st <= j < n -> body rf0 j <> None).
Context (Hhaz : forall rf j, st <= j < n ->
  (forall a, ~ (vd * vb <= a < (vd + j / epv) * vb) -> rf a = rf0 a) -> body rf j = body rf0 j).

Lemma upto_step e a : st <= e ->
  upto (e + 1) a = match F e with
                   | Some v => if (vd * vb + e * wd <=? a) && (a <? vd * vb + (e + 1) * wd)
                               then v / 2 ^ (8 * (a - (vd * vb + e * wd))) mod 256 else upto e a
                   | None => upto e a end.
Proof.
  intros He. unfold upto. cbv zeta. pose proof (idx_bounds vb wd vd a Hwd) as B.
  destruct (Z.eq_dec (idx a) e) as [E|E].
  - rewrite E in *. destruct (Z.leb_spec st e), (Z.ltb_spec e (e + 1)), (Z.ltb_spec e e); try lia. cbn [andb].
    destruct (F e); [|reflexivity].
    destruct (Z.leb_spec (vd * vb + e * wd) a), (Z.ltb_spec a (vd * vb + (e + 1) * wd)); try lia. reflexivity.
  - assert ((idx a <? e + 1) = (idx a <? e)) as -> by (destruct (Z.ltb_spec (idx a) (e + 1)), (Z.ltb_spec (idx a) e); lia).
    destruct (F e); [|reflexivity].
    destruct (Z.leb_spec (vd * vb + e * wd) a), (Z.ltb_spec a (vd * vb + (e + 1) * wd)); cbn [andb]; try reflexivity.
    exfalso. apply E. apply idx_spec; lia.
Qed.
Lemma upto_start a : upto st a = rf0 a.
Proof. unfold upto. cbv zeta. destruct (Z.leb_spec st (idx a)), (Z.ltb_spec (idx a) st); try lia; reflexivity. Qed.

(** Saturation of the elements in [st, e). *)
Definition sat_upto (s0 : bool) (e : Z) (s : bool) : Prop :=
  s = true <-> s0 = true \/ exists j, st <= j < e /\ S j = true.

Lemma sat_step s0 e s : st <= e -> sat_upto s0 e s -> sat_upto s0 (e + 1) (s || S e).
Proof.
  unfold sat_upto. intros He H. rewrite orb_true_iff, H. split.
  - intros [[H1|(j & Hj & HS)]|H1]; [left; exact H1|right; exists j; split; [lia|exact HS]|].
    right; exists e; split; [lia|exact H1].
  - intros [H1|(j & Hj & HS)]; [left; left; exact H1|]. destruct (Z.eq_dec j e) as [-> |]; [right; exact HS|].
    left; right; exists j; split; [lia|exact HS].
Qed.

(** The inner loop. *)
Lemma items_spec s0 reg rf fuel : forall buf i vi sat,
  0 <= reg -> 0 <= i <= epv -> vi = reg * epv + i -> st <= vi -> epv - i <= Z.of_nat fuel -> vi <= n ->
  (forall a, ~ (vd * vb <= a < (vd + reg) * vb) -> rf a = rf0 a) ->
  (forall k, 0 <= k < vb -> buf k = upto vi ((vd + reg) * vb + k)) ->
  sat_upto s0 vi sat ->
  exists buf' sat', items body wd fuel rf buf i (Z.min epv n) vi n sat = Some (buf', Z.min ((reg + 1) * epv) n, sat') /\
    (forall k, 0 <= k < vb -> buf' k = upto (Z.min ((reg + 1) * epv) n) ((vd + reg) * vb + k)) /\
    sat_upto s0 (Z.min ((reg + 1) * epv) n) sat'.
Proof.
  induction fuel as [|fuel IH]; intros buf i vi sat Hreg Hi Hvi Hsv Hf Hn Hrf Hbuf Hsat; cbn [items].
  - assert (i = epv) by lia. subst i. assert (vi = Z.min ((reg + 1) * epv) n) as <- by lia. eauto.
  - destruct (Z.ltb_spec i (Z.min epv n)), (Z.ltb_spec vi n); cbn [andb].
    2: { exists buf, sat. assert (vi = Z.min ((reg + 1) * epv) n) as <- by lia. auto. }
    2: { exists buf, sat. assert (i = epv) by nia. subst i. assert (vi = Z.min ((reg + 1) * epv) n) as <- by lia. auto. }
    2: { exists buf, sat. assert (vi = Z.min ((reg + 1) * epv) n) as <- by nia. auto. }
    assert (vi / epv = reg) as Ereg. { symmetry. apply (Z.div_unique _ _ _ i); lia. }
    rewrite (Hhaz rf vi); [|lia|rewrite Ereg; exact Hrf].
    pose proof (Hdef vi ltac:(lia)) as Hd.
    pose proof (upto_step vi) as US. pose proof (sat_step s0 vi sat Hsv Hsat) as SS.
    unfold F in US. unfold S in SS.
    destruct (body rf0 vi) as [[v s]|]; [clear Hd|congruence]. cbn [obind fst snd].
    replace (Z.min ((reg + 1) * epv) n) with (Z.min ((reg + 1) * epv) n) by reflexivity.
    apply IH; try lia; try assumption.
    intros k Hk. rewrite US by lia.
    assert ((vd + reg) * vb + k - (vd * vb + vi * wd) = k - i * wd) as EK by (rewrite Hvb, Hvi; ring).
    destruct v as [v|]; [|apply Hbuf; exact Hk].
    unfold store_le. rewrite Z2Nat.id by lia. rewrite EK.
    destruct (Z.leb_spec (i * wd) k), (Z.ltb_spec k (i * wd + wd)), (Z.leb_spec (vd * vb + vi * wd) ((vd + reg) * vb + k)),
      (Z.ltb_spec ((vd + reg) * vb + k) (vd * vb + (vi + 1) * wd)); cbn [andb]; try (exfalso; nia); try reflexivity;
      apply Hbuf; exact Hk.
Qed.

Lemma upto_outside e a : 0 <= st -> (forall j, 0 <= j < e -> ~ (vd * vb + j * wd <= a < vd * vb + (j + 1) * wd)) -> upto e a = rf0 a.
Proof.
  intros H0 H. unfold upto. cbv zeta. pose proof (idx_bounds vb wd vd a Hwd).
  destruct (Z.leb_spec st (idx a)), (Z.ltb_spec (idx a) e); cbn [andb]; try reflexivity.
  exfalso. apply (H (idx a)); lia.
Qed.

Lemma regs_spec s0 max_regs fuel : forall rf reg item vi sat,
  n <= max_regs * epv -> 0 <= reg -> 0 <= item < epv -> vi = reg * epv + item -> st <= vi ->
  max_regs - reg <= Z.of_nat fuel -> vi <= n ->
  (forall a, rf a = upto vi a) -> (item <> 0 -> vi = st) -> sat_upto s0 vi sat ->
  exists rf' sat', regs_loop body vb wd vd epv max_regs n fuel rf reg item vi sat = Some (rf', sat') /\
    (forall a, rf' a = upto n a) /\ sat_upto s0 n sat'.
Proof.
  induction fuel as [|fuel IH]; intros rf reg item vi sat Hmax Hreg Hitem Hvi Hsv Hf Hn Hrf Hfirst Hsat; cbn [regs_loop].
  - assert (vi = n) by nia. subst n. eauto.
  - destruct (Z.ltb_spec reg max_regs), (Z.ltb_spec vi n); cbn [andb];
      try (assert (vi = n) by nia; subst n; eauto; fail).
    destruct (items_spec s0 reg rf (Z.to_nat epv) (copy_reg vb rf (vd + reg)) item vi sat) as (buf' & sat' & E & Hb & Hs);
      try lia; try assumption.
    + intros a Ha. rewrite Hrf. destruct (Z.eq_dec item 0) as [E0|E0].
      * apply upto_outside; [exact Hst|]. intros j Hj C. apply Ha. rewrite Hvb. nia.
      * rewrite (Hfirst E0). apply upto_start.
    + intros k Hk. unfold copy_reg. rewrite Hrf. reflexivity.
    + rewrite E. cbn [obind].
      set (e := Z.min ((reg + 1) * epv) n) in *.
      assert (forall a, submit vb rf buf' (vd + reg) a = upto e a) as HS.
      { intros a. unfold submit.
        destruct (Z.leb_spec ((vd + reg) * vb) a), (Z.ltb_spec a ((vd + reg + 1) * vb)); cbn [andb].
        - rewrite Hb by lia. f_equal. lia.
        - rewrite Hrf. unfold upto. cbv zeta. pose proof (idx_bounds vb wd vd a Hwd).
          assert ((reg + 1) * epv <= idx a). { rewrite Hvb in *. nia. }
          destruct (Z.ltb_spec (idx a) vi), (Z.ltb_spec (idx a) e); try lia; rewrite !andb_false_r; reflexivity.
        - rewrite Hrf. unfold upto. cbv zeta. pose proof (idx_bounds vb wd vd a Hwd).
          assert (idx a < reg * epv). { rewrite Hvb in *. nia. }
          destruct (Z.ltb_spec (idx a) vi), (Z.ltb_spec (idx a) e); try lia; reflexivity.
        - exfalso. nia. }
      destruct (Z.ltb_spec ((reg + 1) * epv) n).
      * assert (e = (reg + 1) * epv) as Ee by lia. rewrite Ee in *. apply IH; try lia; try assumption.
      * assert (e = n) as Ee by lia. rewrite Ee in *.
        exists (submit vb rf buf' (vd + reg)), sat'. split; [|split; assumption].
        destruct fuel; cbn [regs_loop]; [reflexivity|].
        destruct (Z.ltb_spec n n); [lia|]. rewrite andb_false_r. reflexivity.
Qed.

Lemma loop_spec s0 max_regs : n <= max_regs * epv -> (max_regs - 1) * epv < n \/ n <= 0 ->
  exists rf' sat', regs_loop body vb wd vd epv max_regs n (Z.to_nat max_regs) rf0 (st / epv) (st mod epv) st s0 = Some (rf', sat') /\
    (forall a, rf' a = upto (Z.max st n) a) /\ sat_upto s0 (Z.max st n) sat'.
Proof.
  intros H1 H2. destruct (Z.leb_spec n st).
  - rewrite Z.max_l by lia. exists rf0, s0. split; [|split].
    + destruct (Z.to_nat max_regs); cbn [regs_loop]; [reflexivity|].
      destruct (Z.ltb_spec st n); [lia|]. rewrite andb_false_r. reflexivity.
    + intros a. symmetry. apply upto_start.
    + unfold sat_upto. split; [auto|]. intros [HH|(j & Hj & _)]; [exact HH|lia].
  - rewrite Z.max_r by lia. pose proof (Z.div_mod st epv ltac:(lia)) as D. pose proof (Z.mod_pos_bound st epv ltac:(lia)).
    pose proof (Z.div_pos st epv Hst ltac:(lia)).
    apply regs_spec; try lia.
    + intros a. symmetry. apply upto_start.
    + unfold sat_upto. split; [auto|]. intros [HH|(j & Hj & _)]; [exact HH|lia].
Qed.
End loops.
