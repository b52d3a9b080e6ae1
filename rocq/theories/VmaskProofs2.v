(** Mask logic, counting, searching and scanning. *)
From Coq Require Import ZArith Bool List Lia.
From Verif Require Import Bits Memory VelemSpec VmaskSpec VcfgModel VelemModel VelemProofs4 VmaskModel VmaskProofs1.
Import ListNotations.
Local Open Scope Z_scope.

(** Bytewise logic. *)
Lemma logic_bit o x y j : 0 <= j < 8 -> Z.testbit (logic_op o x y) j = logic_spec o (Z.testbit x j) (Z.testbit y j).
Proof.
  intros Hj. unfold logic_op. rewrite wrap_testbit by lia. destruct (Z.ltb_spec j 8); [|lia]. cbn [andb].
  destruct o; cbn [logic_spec]; rewrite ?Z.lnot_spec by lia; rewrite ?Z.land_spec, ?Z.lor_spec, ?Z.lxor_spec, ?Z.lnot_spec by lia; reflexivity.
Qed.
Lemma masked_bit old new mask j : 0 <= j < 8 ->
  Z.testbit (masked_byte old new mask) j = if Z.testbit mask j then Z.testbit new j else Z.testbit old j.
Proof.
  intros Hj. unfold masked_byte. rewrite Z.lor_spec, !Z.land_spec, wnot_testbit by lia.
  destruct (Z.ltb_spec j 8); [|lia]. destruct (Z.testbit mask j), (Z.testbit new j), (Z.testbit old j); reflexivity.
Qed.
Lemma start_mask_bit s j : 0 <= s < 8 -> 0 <= j < 8 -> Z.testbit (wrap 8 (Z.shiftl 255 s)) j = (s <=? j).
Proof.
  intros Hs Hj.
  assert (forallb (fun s => forallb (fun j => Bool.eqb (Z.testbit (wrap 8 (Z.shiftl 255 s)) j) (s <=? j)) (zrange 8)) (zrange 8) = true) as T
    by (vm_compute; reflexivity).
  rewrite forallb_forall in T. specialize (T s ltac:(apply zrange_in; lia)).
  rewrite forallb_forall in T. specialize (T j ltac:(apply zrange_in; lia)). apply eqb_prop in T. exact T.
Qed.
Lemma end_mask_bit e j : 0 <= e < 8 -> 0 <= j < 8 -> Z.testbit (wrap 8 (Z.shiftr 255 (7 - e))) j = (j <=? e).
Proof.
  intros Hs Hj.
  assert (forallb (fun e => forallb (fun j => Bool.eqb (Z.testbit (wrap 8 (Z.shiftr 255 (7 - e))) j) (j <=? e)) (zrange 8)) (zrange 8) = true) as T
    by (vm_compute; reflexivity).
  rewrite forallb_forall in T. specialize (T e ltac:(apply zrange_in; lia)).
  rewrite forallb_forall in T. specialize (T j ltac:(apply zrange_in; lia)). apply eqb_prop in T. exact T.
Qed.
Lemma byte_logic o x y : 0 <= logic_op o x y < 256.
Proof. unfold logic_op. change 256 with (2 ^ 8). apply wrap_range. lia. Qed.
Lemma byte_masked old new mask : 0 <= old < 256 -> 0 <= new < 256 -> 0 <= masked_byte old new mask < 256.
Proof. intros H1 H2. change 256 with (2 ^ 8) in *. unfold masked_byte. apply (inw_lor 8); [lia| |]; apply (inw_land_l 8); try lia; assumption. Qed.

Lemma exec_logic_spec st o vd vs2 vs1 :
  let c := cfg st in
  config (vlenb c) (sew c) (lmul8 c) (vl c) -> byte_mem (regs st) -> vexc c = false -> 0 <= vstart c < vl c ->
  let new i := logic_spec o (vbit (vlenb c) (regs st) vs2 i) (vbit (vlenb c) (regs st) vs1 i) in
  exists st', exec_logic st o vd vs2 vs1 = Some st' /\ cfg st' = set_vstart c 0 /\ byte_mem (regs st') /\
    (forall a, ~ (vd * vlenb c <= a < (vd + 1) * vlenb c) -> regs st' a = regs st a) /\
    (forall i, vstart c <= i < vl c -> vbit (vlenb c) (regs st') vd i = new i) /\
    (forall i, 0 <= i < vstart c -> vstart c mod 8 = 0 \/ vstart c / 8 < (vl c - 1) / 8 ->
       vbit (vlenb c) (regs st') vd i = vbit (vlenb c) (regs st) vd i) /\
    (forall i, vl c <= i < 8 * vlenb c ->
       vbit (vlenb c) (regs st') vd i = vbit (vlenb c) (regs st) vd i \/ vbit (vlenb c) (regs st') vd i = new i).
Proof.
  intros c HC Hb Hx Hs new. pose proof (vl_bits _ _ _ _ HC) as (Hvl & Hvb8). unfold exec_logic. fold c. rewrite Hx.
  rewrite !Z.quot_div_nonneg, !Z.rem_mod_nonneg by lia. cbv zeta.
  pose proof (Z.div_mod (vstart c) 8 ltac:(lia)) as D1. pose proof (Z.mod_pos_bound (vstart c) 8 ltac:(lia)) as M1.
  pose proof (Z.div_mod (vl c - 1) 8 ltac:(lia)) as D2. pose proof (Z.mod_pos_bound (vl c - 1) 8 ltac:(lia)) as M2.
  set (sb := vstart c / 8) in *. set (so := vstart c mod 8) in *. set (eb := (vl c - 1) / 8) in *. set (eo := (vl c - 1) mod 8) in *.
  destruct (Z.leb_spec 0 sb), (Z.ltb_spec sb (vlenb c)); try lia. cbn [andb negb].
  match goal with |- context [submit _ _ ?b _] => set (buf := b) end.
  eexists. split; [reflexivity|]. cbn [regs cfg]. split; [reflexivity|].
  assert (byte_mem buf) as Hbuf.
  { intros k. unfold buf. repeat match goal with |- context [if ?b then _ else _] => destruct b end;
      repeat apply byte_masked; try apply byte_logic; apply Hb. }
  split; [apply byte_submit; assumption|]. split; [intros a Ha; apply submit_other; exact Ha|].
  assert (forall i, 0 <= i < 8 * vlenb c -> vbit (vlenb c) (submit (vlenb c) (regs st) buf vd) vd i =
     if ((i / 8 =? eb) && (i mod 8 <=? eo)) || ((i / 8 =? sb) && (so <=? i mod 8)) || ((sb <? i / 8) && (i / 8 <? eb))
     then new i else vbit (vlenb c) (regs st) vd i) as HI.
  { intros i Hi. rewrite vbit_submit by lia. pose proof (Z.mod_pos_bound i 8 ltac:(lia)) as Mi.
    unfold bbit, buf. rewrite <- (start_mask_bit so) by lia. rewrite <- (end_mask_bit eo) by lia.
    assert (new i = Z.testbit (logic_op o (copy_reg (vlenb c) (regs st) vs2 (i / 8)) (copy_reg (vlenb c) (regs st) vs1 (i / 8))) (i mod 8)) as ->
      by (rewrite logic_bit by lia; reflexivity).
    change (vbit (vlenb c) (regs st) vd i) with (Z.testbit (copy_reg (vlenb c) (regs st) vd (i / 8)) (i mod 8)).
    destruct (i / 8 =? eb) eqn:Ee; cbn [andb orb]; rewrite ?masked_bit by lia;
      destruct ((sb <? i / 8) && (i / 8 <? eb)) eqn:Em; rewrite ?orb_true_r, ?orb_false_r;
      destruct (i / 8 =? sb) eqn:Es; cbn [andb orb]; rewrite ?masked_bit by lia; rewrite ?orb_true_r, ?orb_false_r;
      repeat match goal with |- context [Z.testbit (wrap 8 ?x) ?y] => destruct (Z.testbit (wrap 8 x) y) end; reflexivity. }
  clearbody sb so eb eo. split; [|split].
  - intros i Hi. rewrite HI by lia. pose proof (Z.div_mod i 8 ltac:(lia)). pose proof (Z.mod_pos_bound i 8 ltac:(lia)).
    generalize dependent (i / 8). generalize dependent (i mod 8). intros r Hr q Hq. clear - Hi Hr Hq D1 D2 M1 M2 Hs.
    destruct (Z.eqb_spec q eb), (Z.eqb_spec q sb), (Z.leb_spec r eo), (Z.leb_spec so r),
      (Z.ltb_spec sb q), (Z.ltb_spec q eb); cbn [andb orb]; try reflexivity; lia.
  - intros i Hi Ha. rewrite HI by lia. pose proof (Z.div_mod i 8 ltac:(lia)). pose proof (Z.mod_pos_bound i 8 ltac:(lia)).
    generalize dependent (i / 8). generalize dependent (i mod 8). intros r Hr q Hq. clear - Hi Hr Hq D1 D2 M1 M2 Hs Ha.
    destruct (Z.eqb_spec q eb), (Z.eqb_spec q sb), (Z.leb_spec r eo), (Z.leb_spec so r),
      (Z.ltb_spec sb q), (Z.ltb_spec q eb); cbn [andb orb]; try reflexivity; lia.
  - intros i Hi. rewrite HI by lia. destruct (_ || _); [right|left]; reflexivity.
Qed.

(** Counting. *)
Lemma zrange_snoc i : 0 <= i -> zrange (i + 1) = zrange i ++ [i].
Proof.
  intros Hi. unfold zrange. replace (Z.to_nat (i + 1)) with (S (Z.to_nat i)) by lia.
  assert (forall n s, zrange_from s (S n) = zrange_from s n ++ [s + Z.of_nat n]) as G.
  { induction n as [|n IH]; intros s; [cbn; f_equal; lia|].
    change (zrange_from s (S (S n))) with (s :: zrange_from (s + 1) (S n)). rewrite IH. cbn [zrange_from app]. do 3 f_equal. lia. }
  rewrite G. do 2 f_equal. lia.
Qed.
Lemma filter_snoc (h : Z -> bool) i : 0 <= i -> filter h (zrange (i + 1)) = filter h (zrange i) ++ (if h i then [i] else []).
Proof. intros Hi. rewrite zrange_snoc by lia. rewrite filter_app. cbn [filter]. reflexivity. Qed.
Lemma filter_ext_range (h g : Z -> bool) n : (forall j, 0 <= j < n -> h j = g j) -> filter h (zrange n) = filter g (zrange n).
Proof. intros H. apply filter_ext_in. intros j Hj. apply zrange_in in Hj. apply H. exact Hj. Qed.
Definition cnt (h : Z -> bool) (i : Z) : Z := Z.of_nat (length (filter h (zrange i))).
Lemma cnt_step h i : 0 <= i -> cnt h (i + 1) = cnt h i + Z.b2z (h i).
Proof. intros Hi. unfold cnt. rewrite filter_snoc by lia. rewrite app_length. destruct (h i); cbn [length Z.b2z]; lia. Qed.
Lemma cnt_0 h : cnt h 0 = 0. Proof. reflexivity. Qed.
Lemma cpop_spec h fuel : forall i n c, 0 <= i -> n - i <= Z.of_nat fuel -> i <= n -> cpop_loop h fuel i n c = c + cnt h n - cnt h i.
Proof.
  induction fuel as [|f IH]; intros i n c Hi Hf Hn; cbn [cpop_loop].
  - assert (i = n) by lia. subst. lia.
  - destruct (Z.ltb_spec i n); [|assert (i = n) by lia; subst; lia].
    rewrite IH by lia. rewrite cnt_step by lia. lia.
Qed.
Lemma filter_prefix (h : Z -> bool) i k : 0 <= i -> exists l, filter h (zrange (i + Z.of_nat k)) = filter h (zrange i) ++ l.
Proof.
  intros Hi. induction k as [|k (l & IH)]; [exists []; rewrite app_nil_r; do 2 f_equal; lia|].
  replace (i + Z.of_nat (S k)) with (i + Z.of_nat k + 1) by lia. rewrite filter_snoc by lia. rewrite IH.
  eexists. rewrite <- app_assoc. reflexivity.
Qed.
Lemma first_spec h fuel : forall i n, 0 <= i <= n -> n - i <= Z.of_nat fuel -> filter h (zrange i) = [] ->
  first_loop h fuel i n = hd (-1) (filter h (zrange n)).
Proof.
  induction fuel as [|f IH]; intros i n Hi Hf Hh; cbn [first_loop].
  - assert (i = n) by lia. subst. rewrite Hh. reflexivity.
  - destruct (Z.ltb_spec i n); [|assert (i = n) by lia; subst; rewrite Hh; reflexivity].
    destruct (h i) eqn:E.
    + destruct (filter_prefix h (i + 1) (Z.to_nat (n - (i + 1))) ltac:(lia)) as (l & El).
      replace (i + 1 + Z.of_nat (Z.to_nat (n - (i + 1)))) with n in El by lia. rewrite El, filter_snoc, Hh, E by lia. reflexivity.
    + apply IH; [lia|lia|]. rewrite filter_snoc, Hh, E by lia. reflexivity.
Qed.

(** Scans. *)
Definition none (h : Z -> bool) (i : Z) : bool := match filter h (zrange i) with [] => true | _ => false end.
Lemma none_step h i : 0 <= i -> none h (i + 1) = none h i && negb (h i).
Proof. intros Hi. unfold none. rewrite filter_snoc by lia. destruct (filter h (zrange i)), (h i); reflexivity. Qed.
Lemma none_false_up h i j : 0 <= i -> none h i = false -> i <= j -> none h j = false.
Proof.
  intros Hi Hn Hj. unfold none in *. destruct (filter_prefix h i (Z.to_nat (j - i)) Hi) as (l & El).
  replace (i + Z.of_nat (Z.to_nat (j - i))) with j in El by lia. rewrite El. destruct (filter h (zrange i)); [discriminate|reflexivity].
Qed.

Section scans.
Context (m s : Z -> bool).
Local Notation h := (fun i => m i && s i).

Lemma sif_spec fuel : forall buf i n, 0 <= i -> n - i <= Z.of_nat fuel ->
  forall j, bbit (sif_loop m s fuel buf i n (none h i)) j = if (i <=? j) && (j <? n) && m j then none h j else bbit buf j.
Proof.
  induction fuel as [|f IH]; intros buf i n Hi Hf j; cbn [sif_loop].
  - destruct (Z.leb_spec i j), (Z.ltb_spec j n); try reflexivity; lia.
  - destruct (Z.ltb_spec i n); [|destruct (Z.leb_spec i j), (Z.ltb_spec j n); try reflexivity; lia].
    pose proof (none_step h i Hi) as Hs. cbv beta in Hs. destruct (m i) eqn:Em.
    + cbn [andb] in Hs. replace (if s i then false else none h i) with (none h (i + 1)) by (rewrite Hs; destruct (s i), (none h i); reflexivity).
      rewrite IH by lia.
      assert (bbit (if none h i then or_bit buf i true else clear_bit buf i) j = if i =? j then none h i else bbit buf j) as ->.
      { destruct (none h i); [rewrite bbit_or|rewrite bbit_clear]; destruct (i =? j), (bbit buf j); reflexivity. }
      destruct (Z.eqb_spec i j) as [Eij|].
      * subst j. destruct (Z.leb_spec (i + 1) i), (Z.leb_spec i i), (Z.ltb_spec i n); try lia. rewrite Em. reflexivity.
      * destruct (Z.leb_spec (i + 1) j), (Z.leb_spec i j); try lia; reflexivity.
    + cbn [andb negb] in Hs. rewrite andb_true_r in Hs. rewrite <- Hs. rewrite IH by lia.
      destruct (Z.eqb_spec i j) as [Eij|].
      * subst j. destruct (Z.leb_spec (i + 1) i), (Z.leb_spec i i), (Z.ltb_spec i n); try lia. rewrite Em. reflexivity.
      * destruct (Z.leb_spec (i + 1) j), (Z.leb_spec i j); try lia; reflexivity.
Qed.
Lemma sof_spec fuel : forall buf i n, 0 <= i -> n - i <= Z.of_nat fuel ->
  forall j, bbit (sof_loop m s fuel buf i n (none h i)) j = if (i <=? j) && (j <? n) && m j then none h j && s j else bbit buf j.
Proof.
  induction fuel as [|f IH]; intros buf i n Hi Hf j; cbn [sof_loop].
  - destruct (Z.leb_spec i j), (Z.ltb_spec j n); try reflexivity; lia.
  - destruct (Z.ltb_spec i n); [|destruct (Z.leb_spec i j), (Z.ltb_spec j n); try reflexivity; lia].
    pose proof (none_step h i Hi) as Hs. cbv beta in Hs. destruct (m i) eqn:Em.
    + cbn [andb] in Hs. destruct (none h i && s i) eqn:Eh.
      * assert (none h (i + 1) = false) as E1 by (rewrite Hs; destruct (s i), (none h i); try discriminate Eh; reflexivity).
        rewrite <- E1. rewrite IH by lia. rewrite bbit_or. cbn [andb].
        destruct (Z.eqb_spec i j) as [Eij|].
        -- subst j. destruct (Z.leb_spec (i + 1) i), (Z.leb_spec i i), (Z.ltb_spec i n); try lia. rewrite Em, Eh, orb_true_r. reflexivity.
        -- rewrite orb_false_r. destruct (Z.leb_spec (i + 1) j), (Z.leb_spec i j); try lia; reflexivity.
      * assert (none h (i + 1) = none h i) as E1 by (rewrite Hs; destruct (s i), (none h i); try discriminate Eh; reflexivity).
        rewrite <- E1. rewrite IH by lia. rewrite bbit_clear.
        destruct (Z.eqb_spec i j) as [Eij|].
        -- subst j. destruct (Z.leb_spec (i + 1) i), (Z.leb_spec i i), (Z.ltb_spec i n); try lia. rewrite Em, Eh, andb_false_r. reflexivity.
        -- rewrite andb_true_r. destruct (Z.leb_spec (i + 1) j), (Z.leb_spec i j); try lia; reflexivity.
    + cbn [andb negb] in Hs. rewrite andb_true_r in Hs. rewrite <- Hs. rewrite IH by lia.
      destruct (Z.eqb_spec i j) as [Eij|].
      * subst j. destruct (Z.leb_spec (i + 1) i), (Z.leb_spec i i), (Z.ltb_spec i n); try lia. rewrite Em. reflexivity.
      * destruct (Z.leb_spec (i + 1) j), (Z.leb_spec i j); try lia; reflexivity.
Qed.
Lemma clear_spec fuel : forall buf i n, n - i <= Z.of_nat fuel ->
  forall j, bbit (sbf_clear fuel buf i n false) j = bbit buf j && negb ((i <=? j) && (j <? n)).
Proof.
  induction fuel as [|f IH]; intros buf i n Hf j; cbn [sbf_clear].
  - destruct (Z.leb_spec i j), (Z.ltb_spec j n); try lia; cbn [andb negb]; rewrite ?andb_true_r; reflexivity.
  - cbn [negb andb]. destruct (Z.ltb_spec i n).
    + rewrite IH by lia. rewrite bbit_clear. destruct (Z.eqb_spec i j), (Z.leb_spec (i + 1) j), (Z.leb_spec i j), (Z.ltb_spec j n); try lia; destruct (bbit buf j); reflexivity.
    + destruct (Z.leb_spec i j), (Z.ltb_spec j n); try lia; cbn [andb negb]; rewrite ?andb_true_r; reflexivity.
Qed.
Lemma sbf_clear_true fuel buf i n : sbf_clear fuel buf i n true = buf.
Proof. destruct fuel; reflexivity. Qed.
Lemma sbf_spec fuel : forall buf i n last fuel2, 0 <= i -> n - i <= Z.of_nat fuel -> n <= Z.of_nat fuel2 -> none h i = true ->
  forall j, bbit (let '(b, bf, l) := sbf_set m s fuel buf i n last true in sbf_clear fuel2 b l n bf) j =
    if (i <=? j) && (j <? n) then (if none h j then (if m j then negb (s j) else bbit buf j) else false) else bbit buf j.
Proof.
  induction fuel as [|f IH]; intros buf i n last fuel2 Hi Hf Hf2 Hn j; cbn [sbf_set].
  - rewrite sbf_clear_true. destruct (Z.leb_spec i j), (Z.ltb_spec j n); try reflexivity; lia.
  - destruct (Z.ltb_spec i n).
    2: { rewrite sbf_clear_true. destruct (Z.leb_spec i j), (Z.ltb_spec j n); try reflexivity; lia. }
    pose proof (none_step h i Hi) as Hs. cbv beta in Hs. rewrite Hn in Hs. cbn [andb] in Hs |- *. destruct (m i) eqn:Em; cbn [andb] in Hs.
    + destruct (s i) eqn:Es; cbn [negb] in Hs |- *.
      * rewrite clear_spec by lia. destruct (Z.leb_spec i j), (Z.ltb_spec j n); cbn [andb negb]; rewrite ?andb_true_r, ?andb_false_r; try reflexivity.
        destruct (Z.eqb_spec i j) as [Eij|]; [subst j; rewrite Hn, Em, Es; reflexivity|].
        rewrite (none_false_up h (i + 1) j) by (lia || exact Hs). reflexivity.
      * rewrite IH by (lia || exact Hs). rewrite bbit_or. cbn [andb].
        destruct (Z.eqb_spec i j) as [Eij|].
        -- subst j. destruct (Z.leb_spec (i + 1) i), (Z.leb_spec i i), (Z.ltb_spec i n); try lia. cbn [andb]. rewrite Hn, Em, Es, orb_true_r. reflexivity.
        -- rewrite orb_false_r. destruct (Z.leb_spec (i + 1) j), (Z.leb_spec i j); try lia; reflexivity.
    + rewrite IH by (lia || exact Hs). destruct (Z.eqb_spec i j) as [Eij|].
      * subst j. destruct (Z.leb_spec (i + 1) i), (Z.leb_spec i i), (Z.ltb_spec i n); try lia. cbn [andb]. rewrite Hn, Em. reflexivity.
      * destruct (Z.leb_spec (i + 1) j), (Z.leb_spec i j); try lia; reflexivity.
Qed.
Lemma sif_byte fuel : forall buf i n v, byte_mem buf -> byte_mem (sif_loop m s fuel buf i n v).
Proof.
  induction fuel as [|f IH]; intros buf i n v H; cbn [sif_loop]; [exact H|].
  destruct (i <? n); [|exact H]. destruct (m i); [|apply IH; exact H]. apply IH. destruct v; [apply byte_or|apply byte_clear]; exact H.
Qed.
Lemma sof_byte fuel : forall buf i n v, byte_mem buf -> byte_mem (sof_loop m s fuel buf i n v).
Proof.
  induction fuel as [|f IH]; intros buf i n v H; cbn [sof_loop]; [exact H|].
  destruct (i <? n); [|exact H]. destruct (m i); [|apply IH; exact H].
  destruct (v && s i); apply IH; [apply byte_or|apply byte_clear]; exact H.
Qed.
Lemma sbfc_byte fuel : forall buf i n v, byte_mem buf -> byte_mem (sbf_clear fuel buf i n v).
Proof.
  induction fuel as [|f IH]; intros buf i n v H; cbn [sbf_clear]; [exact H|].
  destruct (negb v && (i <? n)); [|exact H]. apply IH, byte_clear, H.
Qed.
Lemma sbf_byte fuel : forall buf i n l v, byte_mem buf -> byte_mem (fst (fst (sbf_set m s fuel buf i n l v))).
Proof.
  induction fuel as [|f IH]; intros buf i n l v H; cbn [sbf_set]; [exact H|].
  destruct (i <? n); [|exact H]. destruct (m i); [|apply IH; exact H].
  destruct (negb (v && negb (s i))); [exact H|]. apply IH, byte_or, H.
Qed.
End scans.
