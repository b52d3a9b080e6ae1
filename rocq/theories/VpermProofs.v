(** Proofs about the permutation model. *)
From Coq Require Import ZArith Bool List Lia.
From Verif Require Import Bits Memory VelemSpec VmaskSpec VpermSpec VcfgModel VelemModel VmaskModel VpermModel
  VelemProofs4 VmaskProofs1 VmaskProofs2.
From Verif Require VelemProofs3.
Import ListNotations.
Local Open Scope Z_scope.

Lemma mask_mod vb rf vm n epv j : 1 <= epv -> vm = true \/ n <= epv -> 0 <= j < n ->
  mask_value rf vm (j mod epv) = mask_of vb rf vm j.
Proof.
  intros He H Hj. destruct H as [-> |Hn].
  - rewrite (mask_of_ok vb) by (apply Z.mod_pos_bound; lia). reflexivity.
  - rewrite Z.mod_small by lia. apply mask_of_ok. lia.
Qed.

Lemma perm_spec st vd vm elt (r : Z -> option Z) :
  let c := cfg st in
  config (vlenb c) (sew c) (lmul8 c) (vl c) -> group (sew c) (lmul8 c) (sew c) vd -> vexc c = false -> 0 <= vstart c ->
  vm = true \/ vl c <= vlenb c / sew c ->
  (forall rf j, vstart c <= j < vl c ->
     (forall a, ~ (vd * vlenb c <= a < (vd + j / (vlenb c / sew c)) * vlenb c) -> rf a = regs st a) ->
     elt rf j (mask_of (vlenb c) (regs st) vm j) = Some (r j)) ->
  exists st', perm st vd vm elt = Some st' /\ cfg st' = set_vstart c 0 /\
    (forall j v, vstart c <= j < vl c -> r j = Some v -> elem (vlenb c) (regs st') vd (sew c) j = wrap (8 * sew c) v) /\
    (forall a, (forall j, vstart c <= j < vl c -> r j <> None -> ~ in_elem (vlenb c) vd (sew c) j a) -> regs st' a = regs st a).
Proof.
  intros c HC HD Hx Hst Hmk Hhaz.
  assert (forall j, vstart c <= j < vl c -> elt (regs st) j (mask_of (vlenb c) (regs st) vm j) = Some (r j)) as Helt
    by (intros j Hj; apply Hhaz; [exact Hj|reflexivity]).
  destruct (config_vb _ _ _ _ HC) as (q & Hq & Hvb).
  pose proof (epv_spec q (sew c) (proj1 HD) Hq) as (He & He1). rewrite <- Hvb in He, He1.
  pose proof (group_holds _ _ _ _ _ _ HC HD) as (Hh & Hg1). pose proof (num_regs_ge _ _ _ _ _ _ HC HD) as Hnr.
  pose proof (sew_ge1 _ _ _ _ HC) as Hwd1. pose proof (vl_bits _ _ _ _ HC) as (Hvl & _).
  unfold perm. fold c. rewrite Hx. cbv zeta.
  set (wd := sew c) in *. set (vb := vlenb c) in *. set (epv := vb / wd) in *. set (n := vl c) in *. set (rf0 := regs st) in *.
  set (mr := Z.max 1 ((n + epv - 1) / epv)). set (g := nregs wd (lmul8 c) wd) in *.
  assert (n <= g * epv) as Hng by nia.
  assert ((n + epv - 1) / epv <= g) as Hmr0. { apply Z.lt_succ_r. apply Z.div_lt_upper_bound; nia. }
  assert (mr <= g) as Hmr by (unfold mr; lia).
  destruct (Z.ltb_spec (num_regs vd) mr); [lia|].
  assert (n <= mr * epv) as Hn1.
  { pose proof (Z.div_mod (n + epv - 1) epv ltac:(lia)). pose proof (Z.mod_pos_bound (n + epv - 1) epv ltac:(lia)).
    assert (n <= (n + epv - 1) / epv * epv) by nia. unfold mr. nia. }
  assert ((mr - 1) * epv < n \/ n <= 0) as Hn2.
  { destruct (Z.leb_spec n 0); [right; lia|left]. pose proof (Z.mul_div_le (n + epv - 1) epv ltac:(lia)).
    assert (((n + epv - 1) / epv - 1) * epv < n) by nia. unfold mr.
    destruct (Z.leb_spec ((n + epv - 1) / epv) 1); [rewrite Z.max_l by lia; lia|rewrite Z.max_r by lia; lia]. }
  set (vst := vstart c) in *.
  match goal with |- context [regs_loop ?b _ _ _ _ _ _ _ _ _ _ _ _] => set (body := b) end.
  clearbody mr. clear Hmr0 Hvb Hq Hnr Hx Hh Hvl Hg1 HC HD.
  assert (forall j, vst <= j < n -> body rf0 j = Some (r j, false)) as Hb0.
  { intros j Hj. unfold body. rewrite (mask_mod vb rf0 vm n epv) by (try assumption; lia). rewrite Helt by exact Hj. reflexivity. }
  destruct (VelemProofs3.loop_spec body vb wd vd epv n rf0 vst Hwd1 He1 He Hst) with (s0 := false) (max_regs := mr)
    as (rf' & sat' & E & Hrf' & _); [intros j Hj; rewrite Hb0 by exact Hj; discriminate| |exact Hn1|exact Hn2|].
  { intros rf j Hj Hag. rewrite Hb0 by exact Hj. unfold body.
    rewrite (mask_mod vb rf0 vm n epv) by (try assumption; lia). rewrite Hhaz by assumption. reflexivity. }
  rewrite E. cbn [obind fst]. eexists. split; [reflexivity|]. cbn [cfg regs]. split; [reflexivity|].
  clearbody epv vst wd vb n. clear E Hhaz.
  split.
  - intros j v Hj Hr. unfold elem.
    rewrite (load_le_ext rf' (store_le rf0 (vd * vb + j * wd) (Z.to_nat wd) v)).
    + rewrite load_store_same. rewrite Z2Nat.id by lia. reflexivity.
    + rewrite Z2Nat.id by lia. intros a Ha'. rewrite Hrf'. rewrite store_le_same by (rewrite Z2Nat.id; lia).
      unfold VelemProofs3.upto. cbv zeta. rewrite (VelemProofs3.idx_spec vb wd vd a j) by lia.
      destruct (Z.leb_spec vst j), (Z.ltb_spec j (Z.max vst n)); try lia. cbn [andb].
      unfold VelemProofs3.F. rewrite Hb0, Hr by exact Hj. reflexivity.
  - intros a Hna. rewrite Hrf'. unfold VelemProofs3.upto. cbv zeta.
    destruct (Z.leb_spec vst (VelemProofs3.idx vb wd vd a)), (Z.ltb_spec (VelemProofs3.idx vb wd vd a) (Z.max vst n)); cbn [andb]; try reflexivity.
    set (j := VelemProofs3.idx vb wd vd a) in *. unfold VelemProofs3.F. rewrite Hb0 by lia.
    destruct (r j) eqn:Er; [|reflexivity].
    exfalso. apply (Hna j); [lia|congruence|]. apply (VelemProofs3.idx_bounds vb wd vd a Hwd1).
Qed.

Lemma perm_update st vd vm elt (P : Z -> Prop) (f : Z -> Z) :
  let c := cfg st in
  config (vlenb c) (sew c) (lmul8 c) (vl c) -> group (sew c) (lmul8 c) (sew c) vd -> vexc c = false -> 0 <= vstart c ->
  vm = true \/ vl c <= vlenb c / sew c ->
  (forall j, P j -> vstart c <= j < vl c) ->
  (forall rf j, vstart c <= j < vl c ->
     (forall a, ~ (vd * vlenb c <= a < (vd + j / (vlenb c / sew c)) * vlenb c) -> rf a = regs st a) ->
     (P j /\ elt rf j (mask_of (vlenb c) (regs st) vm j) = Some (Some (f j)) /\ inw (8 * sew c) (f j)) \/
     (~ P j /\ elt rf j (mask_of (vlenb c) (regs st) vm j) = Some None)) ->
  exists st', perm st vd vm elt = Some st' /\ cfg st' = set_vstart c 0 /\
    elem_update (vlenb c) vd (sew c) P f (regs st) (regs st').
Proof.
  intros c HC HD Hx Hst Hmk HP H.
  set (r := fun j => match elt (regs st) j (mask_of (vlenb c) (regs st) vm j) with Some x => x | None => None end).
  destruct (perm_spec st vd vm elt r HC HD Hx Hst Hmk) as (st' & E & E1 & E2 & E3).
  { intros rf j Hj Hag. fold c in Hj, Hag |- *. unfold r.
    destruct (H (regs st) j Hj ltac:(reflexivity)) as [(A & -> & _)|(A & ->)], (H rf j Hj Hag) as [(B & -> & _)|(B & ->)];
      try reflexivity; contradiction. }
  exists st'. split; [exact E|]. split; [exact E1|]. fold c in E2, E3. split.
  - intros j Hj. pose proof (HP j Hj) as Hr. destruct (H (regs st) j Hr ltac:(reflexivity)) as [(A & B & D)|(A & _)]; [|contradiction].
    rewrite (E2 j (f j) Hr) by (unfold r; rewrite B; reflexivity). apply wrap_id. exact D.
  - intros a Ha. apply E3. intros j Hj Hr. apply Ha.
    destruct (H (regs st) j Hj ltac:(reflexivity)) as [(A & _)|(A & B)]; [exact A|]. unfold r in Hr. rewrite B in Hr. congruence.
Qed.

(** Reading past vl but inside the operand group. *)
Lemma read_elem_gen vb sew lmul8 vl w r rf k : config vb sew lmul8 vl -> In w [1; 2; 4; 8] -> 0 <= k < num_regs r * (vb / w) ->
  read_elem vb rf r w k = Some (elem vb rf r w k).
Proof.
  intros HC Hw Hk. destruct (config_vb _ _ _ _ HC) as (m & Hm & ->). pose proof (epv_spec m w Hw Hm) as (He & He1).
  unfold read_elem, elem. cbv zeta. set (e := 8 * m / w) in *.
  assert (k / e < num_regs r). { apply Z.div_lt_upper_bound; lia. }
  destruct (Z.ltb_spec (k / e) (num_regs r)); [|lia]. do 2 f_equal.
  rewrite He at 1 2. pose proof (Z.div_mod k e ltac:(lia)). nia.
Qed.
Lemma vlmax_group vb sew lmul8 vl r : config vb sew lmul8 vl -> group sew lmul8 sew r ->
  vlmax_of vb sew lmul8 <= nregs sew lmul8 sew * (vb / sew) /\ vlmax_of vb sew lmul8 <= num_regs r * (vb / sew) /\
  vl <= vlmax_of vb sew lmul8 /\ 0 <= vlmax_of vb sew lmul8 <= 65536.
Proof.
  intros HC HG. pose proof HC as (H1 & H2 & H3 & H4).
  assert (config vb sew lmul8 (vlmax_of vb sew lmul8)) as HC'.
  { unfold config. split; [exact H1|]. split; [exact H2|]. split; [exact H3|]. unfold vlmax_of. lia. }
  pose proof (group_holds _ _ _ _ _ _ HC' HG) as (Hh & Hg1). pose proof (num_regs_ge _ _ _ _ _ _ HC HG) as Hnr.
  pose proof (vl_bits _ _ _ _ HC') as (Hv & Hvb8). destruct (config_vb _ _ _ _ HC) as (q & Hq & Hvb).
  pose proof (epv_spec q sew (proj1 HG) Hq) as (He & He1). rewrite <- Hvb in He, He1.
  pose proof (sew_ge1 _ _ _ _ HC) as Hs1.
  assert (vlmax_of vb sew lmul8 <= nregs sew lmul8 sew * (vb / sew)) as A.
  { set (e := vb / sew) in *. set (V := vlmax_of vb sew lmul8) in *. clearbody e V. clear HC HC' H4 HG. nia. }
  assert (vb <= 2 ^ 13) as Hvbu by (destruct H1 as (k & Hk & ->); apply Z.pow_le_mono_r; lia).
  split; [exact A|]. split; [|split; [unfold vlmax_of; lia|split; [lia|]]].
  - set (e := vb / sew) in *. clearbody e. clear HC HC' H4 HG. nia.
  - lia.
Qed.

Lemma elem_dis vb rf rf0 vd g r h w k t : 1 <= vb -> 1 <= w -> 0 <= k -> (k + 1) * w <= h * vb -> t <= g -> disjoint vd g r h ->
  (forall a, ~ (vd * vb <= a < (vd + t) * vb) -> rf a = rf0 a) -> elem vb rf r w k = elem vb rf0 r w k.
Proof.
  intros Hvb Hw Hk Hk2 Ht Hd Ha. apply elem_ext; [lia|]. intros a Hin. apply Ha. unfold in_elem in Hin. unfold disjoint in Hd. nia.
Qed.
Lemma elem_up vb rf rf0 vd w epv j k : 1 <= w -> vb = epv * w -> 1 <= epv -> 0 <= j <= k ->
  (forall a, ~ (vd * vb <= a < (vd + j / epv) * vb) -> rf a = rf0 a) -> elem vb rf vd w k = elem vb rf0 vd w k.
Proof.
  intros Hw Hvb He Hjk Ha. apply elem_ext; [lia|]. intros a Hin. apply Ha. unfold in_elem in Hin.
  pose proof (Z.mul_div_le j epv ltac:(lia)). set (t := j / epv) in *. clearbody t. subst vb. nia.
Qed.
Lemma widest_regs r : num_regs r = widest r.
Proof.
  unfold num_regs, widest. pose proof (Z.mod_pos_bound r 8 ltac:(lia)) as B.
  assert (r mod 4 = r mod 8 mod 4) as ->.
  { rewrite (Z.div_mod r 8) at 1 by lia. replace (8 * (r / 8) + r mod 8) with (r mod 8 + (2 * (r / 8)) * 4) by ring. apply Z.mod_add. lia. }
  assert (r mod 2 = r mod 8 mod 2) as ->.
  { rewrite (Z.div_mod r 8) at 1 by lia. replace (8 * (r / 8) + r mod 8) with (r mod 8 + (4 * (r / 8)) * 2) by ring. apply Z.mod_add. lia. }
  generalize (r mod 8) B. clear. intros x B. apply Z.eqb_eq. revert x B. apply forall_zrange. reflexivity.
Qed.
(** Common numeric facts. *)
Record facts (vb sew lmul8 vl g : Z) : Prop := {
  f_vb : 1 <= vb; f_sew : 1 <= sew; f_in : In sew [1; 2; 4; 8]; f_epv : vb = vb / sew * sew; f_epv1 : 1 <= vb / sew;
  f_vl : 0 <= vl <= vlmax_of vb sew lmul8; f_max : vlmax_of vb sew lmul8 * sew <= g * vb; f_max2 : vlmax_of vb sew lmul8 <= 65536;
  f_div : forall j, 0 <= j < vl -> 0 <= j / (vb / sew) <= g }.
Lemma get_facts vb sew lmul8 vl r : config vb sew lmul8 vl -> group sew lmul8 sew r ->
  facts vb sew lmul8 vl (nregs sew lmul8 sew).
Proof.
  intros HC HG. destruct (vlmax_group _ _ _ _ _ HC HG) as (A & B & C & D).
  destruct (config_vb _ _ _ _ HC) as (q & Hq & Hvb). pose proof (epv_spec q sew (proj1 HG) Hq) as (He & He1). rewrite <- Hvb in He, He1.
  pose proof (sew_ge1 _ _ _ _ HC) as Hs1. pose proof (vl_bits _ _ _ _ HC) as (Hv & _).
  pose proof (proj1 HG) as Hin. clear HC HG.
  assert (forall V e g, V <= g * e -> vb = e * sew -> V * sew <= g * vb) as N1 by (clear - Hs1; intros; nia).
  assert (forall V e g j, V <= g * e -> 1 <= e -> 0 <= j < V -> 0 <= j / e <= g) as N2.
  { clear. intros V e g j H1 H2 H3. split; [apply Z.div_pos; lia|]. apply Z.lt_succ_r, Z.div_lt_upper_bound; nia. }
  split; try lia; [exact Hin|exact (N1 _ _ _ A He)|].
  intros j Hj. apply (N2 (vlmax_of vb sew lmul8)); [exact A|exact He1|lia].
Qed.

Lemma switch st k sew' lm vl' vb : config vb sew' lm vl' -> sew' = sew (cfg st) -> sew_switch st k = k.
Proof. intros HC E. unfold sew_switch. rewrite <- E, (sew_in _ _ _ _ HC). reflexivity. Qed.

(** The compress loop. *)
Section compress.
Context (vb wd epv vd vs2 g n : Z) (sel : Z -> bool) (rf0 : mem).
Context (Hwd : 1 <= wd) (He : vb = epv * wd) (He1 : 1 <= epv) (Hn : n <= g * epv) (Hd : disjoint vd g vs2 g).
Context (Hread : forall rf j, 0 <= j < n -> read_elem vb rf vs2 wd j = Some (elem vb rf vs2 wd j)).
Definition sels (i : Z) : list Z := filter sel (zrange i).
(** The virtual register file after the first [length l] selected elements. *)
Definition packed (l : list Z) (V : mem) : Prop :=
  (forall k, (k < length l)%nat -> elem vb V vd wd (Z.of_nat k) = wrap (8 * wd) (elem vb rf0 vs2 wd (nth k l 0))) /\
  (forall a, ~ (vd * vb <= a < vd * vb + Z.of_nat (length l) * wd) -> V a = rf0 a).
Lemma packed_ext l V V' : (forall a, V a = V' a) -> packed l V' -> packed l V.
Proof.
  intros H (P1 & P2). split.
  - intros k Hk. rewrite <- P1 by exact Hk. apply elem_ext; [lia|]. intros a _. apply H.
  - intros a Ha. rewrite H. apply P2. exact Ha.
Qed.
Lemma packed_step l V i : 0 <= i < n -> Z.of_nat (length l) <= i ->
  packed l V -> packed (l ++ [i]) (store_le V (vd * vb + Z.of_nat (length l) * wd) (Z.to_nat wd) (elem vb rf0 vs2 wd i)).
Proof.
  intros Hi Hl (P1 & P2). set (d := Z.of_nat (length l)) in *. split.
  - intros k Hk. rewrite app_length in Hk. cbn [length] in Hk. unfold elem at 1.
    destruct (Nat.eq_dec k (length l)) as [-> |Hne].
    + fold d. rewrite load_store_same. rewrite Z2Nat.id by lia. rewrite app_nth2 by lia. rewrite Nat.sub_diag. reflexivity.
    + rewrite load_store_other by (rewrite !Z2Nat.id by lia; nia). rewrite app_nth1 by lia. apply P1. lia.
  - intros a Ha. rewrite app_length in Ha. cbn [length] in Ha.
    rewrite store_le_other by (rewrite Z2Nat.id by lia; nia). apply P2. nia.
Qed.

Lemma compress_spec fuel : forall rf cur i l,
  l = sels i -> 0 <= i -> Z.of_nat (length l) <= i -> n - i <= Z.of_nat fuel ->
  packed l (flush vb vd rf cur) ->
  (forall a, ~ (vd * vb <= a < vd * vb + Z.of_nat (length l) * wd) -> rf a = rf0 a) ->
  match cur with None => True | Some (r, _) => 0 <= r < g end ->
  exists rf', compress_loop vb wd epv vd vs2 sel fuel rf cur i n (Z.of_nat (length l)) = Some rf' /\ packed (sels (Z.max i n)) rf'.
Proof.
  induction fuel as [|f IH]; intros rf cur i l El Hi Hl Hf HP Hrf Hcur; cbn [compress_loop].
  - rewrite Z.max_l by lia. rewrite <- El. eauto.
  - destruct (Z.ltb_spec i n); [|rewrite Z.max_l by lia; rewrite <- El; eauto].
    assert (Z.max i n = Z.max (i + 1) n) as -> by lia.
    assert (sels (i + 1) = l ++ (if sel i then [i] else [])) as Es.
    { unfold sels. rewrite zrange_snoc, filter_app, El by lia. cbn [filter]. destruct (sel i); reflexivity. }
    destruct (sel i).
    2: { apply IH; try lia; try assumption. rewrite Es, app_nil_r. reflexivity. }
    set (d := Z.of_nat (length l)) in *. set (reg := d / epv).
    set (same := match cur with Some (p, _) => p =? reg | None => false end).
    set (rf1 := if same then rf else flush vb vd rf cur).
    set (buf1 := match cur with Some (_, b) => if same then b else copy_reg vb rf1 (vd + reg) | None => copy_reg vb rf1 (vd + reg) end).
    assert (forall a, ~ (vd * vb <= a < vd * vb + d * wd) -> rf1 a = rf0 a) as Hrf1.
    { unfold rf1. destruct same; [exact Hrf|]. apply HP. }
    assert (0 <= reg < g) as Hreg by (split; [apply Z.div_pos; lia|apply Z.div_lt_upper_bound; nia]).
    rewrite Hread by lia. cbn [obind].
    assert (elem vb rf1 vs2 wd i = elem vb rf0 vs2 wd i) as ->.
    { apply elem_ext; [lia|]. intros a Ha. apply Hrf1. unfold in_elem in Ha. unfold disjoint in Hd. nia. }
    set (x := elem vb rf0 vs2 wd i).
    assert (forall a, submit vb rf1 buf1 (vd + reg) a = flush vb vd rf cur a) as Hsub.
    { intros a. unfold buf1, rf1, same. destruct cur as [[p b]|].
      - destruct (Z.eqb_spec p reg) as [-> |]; [reflexivity|]. unfold submit at 1.
        destruct ((_ <=? a) && _) eqn:E; [|reflexivity]. unfold copy_reg. f_equal. lia.
      - unfold submit, copy_reg. cbn [flush]. destruct ((_ <=? a) && _) eqn:E; [|reflexivity]. f_equal. lia. }
    replace (d + 1) with (Z.of_nat (length (l ++ [i]))) by (rewrite app_length; cbn [length]; lia).
    apply IH.
    + symmetry. exact Es.
    + lia.
    + rewrite app_length. cbn [length]. lia.
    + lia.
    + apply (packed_ext _ _ (store_le (flush vb vd rf cur) (vd * vb + d * wd) (Z.to_nat wd) x)); [|apply packed_step; [lia|fold d; lia|exact HP]].
      intros a. cbn [flush]. unfold submit at 1.
      pose proof (Z.div_mod d epv ltac:(lia)) as D. fold reg in D. pose proof (Z.mod_pos_bound d epv ltac:(lia)) as B.
      set (o := d mod epv) in *.
      assert (vd * vb + d * wd = (vd + reg) * vb + o * wd) as Eo by (rewrite D, He; ring). rewrite Eo.
      pose proof (Hsub a) as Hs. unfold submit at 1 in Hs. unfold store_le. rewrite !Z2Nat.id by lia.
      assert (o * wd + wd <= vb) as Bo by (rewrite He; nia).
      assert ((vd + reg + 1) * vb = (vd + reg) * vb + vb) as E1 by ring. rewrite E1 in *.
      set (base := (vd + reg) * vb) in *. clearbody base o. clear - Hs Bo B Hwd.
      destruct (Z.leb_spec base a), (Z.ltb_spec a (base + vb)); cbn [andb] in *.
      * destruct (Z.leb_spec (o * wd) (a - base)), (Z.ltb_spec (a - base) (o * wd + wd)), (Z.leb_spec (base + o * wd) a), (Z.ltb_spec a (base + o * wd + wd));
          cbn [andb]; try lia; try exact Hs. do 4 f_equal. lia.
      * destruct (Z.leb_spec (base + o * wd) a), (Z.ltb_spec a (base + o * wd + wd)); cbn [andb]; try lia; exact Hs.
      * destruct (Z.leb_spec (base + o * wd) a), (Z.ltb_spec a (base + o * wd + wd)); cbn [andb]; try nia; exact Hs.
      * destruct (Z.leb_spec (base + o * wd) a), (Z.ltb_spec a (base + o * wd + wd)); cbn [andb]; try nia; exact Hs.
    + intros a Ha. apply Hrf1. rewrite app_length in Ha. cbn [length] in Ha. fold d in Ha. nia.
    + exact Hreg.
Qed.
End compress.
