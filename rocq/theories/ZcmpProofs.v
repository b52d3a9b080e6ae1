(** Proofs for C27 and C60. *)
From Coq Require Import ZArith Bool List Lia.
From Verif Require Import Bits Memory AccessSpec AccessModel ZcmpSpec ZcmpModel.
Import ListNotations.
Local Open Scope Z_scope.

Definition wok w := w = 32 \/ w = 64.
Lemma xbytes_pos w : wok w -> xbytes w = 4 \/ xbytes w = 8.
Proof. intros [-> | ->]; [left|right]; reflexivity. Qed.
Lemma xbytes_w w : wok w -> 8 * xbytes w = w.
Proof. intros [-> | ->]; reflexivity. Qed.

(** ** Register lists. *)
Lemma rlist_cases (P : Z -> Prop) : (forall r, In r (zrange_from 4 12) -> P r) -> forall r, 4 <= r <= 15 -> P r.
Proof. intros H r Hr. apply H, zrange_from_in. cbn. lia. Qed.
Lemma rlist_operands_spec r : 4 <= r <= 15 -> rlist_operands r = rlist_regs r.
Proof.
  revert r. apply rlist_cases. intros r H. cbn in H.
  repeat (destruct H as [<-|H]; [reflexivity|]). contradiction.
Qed.
Lemma stack_adj_spec w r : wok w -> 4 <= r <= 15 -> stack_adj_base w r = frame_base w r.
Proof.
  intros Hw Hr. revert r Hr. apply (rlist_cases (fun r => stack_adj_base w r = frame_base w r)). intros r H. cbn in H.
  destruct Hw as [-> | ->]; repeat (destruct H as [<-|H]; [reflexivity|]); contradiction.
Qed.
Lemma rlist_nodup r : NoDup (rlist_regs r) /\ ~ In 2 (rlist_regs r) /\ ~ In 10 (rlist_regs r).
Proof.
  unfold rlist_regs. destruct (r <? 4); [repeat split; [constructor|intros []|intros []]|].
  set (k := Z.to_nat _). assert (NoDup saved_order /\ ~ In 2 saved_order /\ ~ In 10 saved_order) as (N & I & J).
  { split; [|cbn; lia]. unfold saved_order. repeat (constructor; [cbn; lia|]). constructor. }
  assert (forall x, In x (firstn k saved_order) -> In x saved_order) as F.
  { intros x H. rewrite <- (firstn_skipn k saved_order). apply in_app_iff. left. exact H. }
  split; [|split; intros H; auto].
  rewrite <- (firstn_skipn k saved_order) in N. clear -N. induction (firstn k saved_order) as [|a l IH]; [constructor|].
  cbn in N. apply NoDup_cons_iff in N as [N1 N2]. constructor; [|apply IH, N2]. intros H. apply N1, in_app_iff. left. exact H.
Qed.
Lemma frame_base_bound w r : wok w -> 4 <= r <= 15 ->
  xbytes w * Z.of_nat (length (rlist_regs r)) <= frame_base w r <= 112 /\ frame_base w r mod 16 = 0 /\ (1 <= length (rlist_regs r))%nat.
Proof.
  intros Hw Hr. revert r Hr. apply (rlist_cases (fun r => xbytes w * Z.of_nat (length (rlist_regs r)) <= frame_base w r <= 112 /\ frame_base w r mod 16 = 0 /\ (1 <= length (rlist_regs r))%nat)).
  intros r H. cbn in H.
  destruct Hw as [-> | ->]; repeat (destruct H as [<-|H]; [vm_compute; repeat split; try discriminate; repeat constructor|]); contradiction.
Qed.

(** ** Buffers. *)
Lemma db_value_range w vals : wok w -> 0 <= db_value w vals < 2 ^ (w * Z.of_nat (length vals)).
Proof.
  intros Hw. assert (0 < w) by (destruct Hw; lia). induction vals as [|v l IH]; cbn [db_value fold_right length].
  - rewrite Z.mul_0_r. cbn. lia.
  - fold (db_value w l). replace (w * Z.of_nat (S (length l))) with (w + w * Z.of_nat (length l)) by lia.
    rewrite Z.pow_add_r by lia. pose proof (wrap_range w v). unfold inw in *. nia.
Qed.
Lemma db_word_value w vals j : wok w -> (j < length vals)%nat -> db_word w (db_value w vals) j = wrap w (nth j vals 0).
Proof.
  intros Hw. assert (0 < w) as Hp by (destruct Hw; lia). pose proof (pow2_pos w ltac:(lia)).
  revert j. induction vals as [|v l IH]; intros j Hj; cbn [length] in Hj; [lia|].
  cbn [db_value fold_right]. fold (db_value w l). unfold db_word. destruct j as [|j].
  - rewrite Z.mul_0_r, Z.pow_0_r, Z.div_1_r. cbn [nth]. unfold wrap.
    rewrite (Z.mul_comm (2 ^ w)), Z_mod_plus_full, Z.mod_mod by lia. reflexivity.
  - cbn [nth]. rewrite <- IH by lia. unfold db_word. f_equal.
    replace (w * Z.of_nat (S j)) with (w + w * Z.of_nat j) by lia. rewrite Z.pow_add_r, <- Z.div_div by (try apply Z.pow_nonzero; try apply pow2_pos; lia).
    f_equal. rewrite (Z.mul_comm (2 ^ w)), Z.div_add by lia. rewrite Z.div_small by (apply wrap_range; lia). reflexivity.
Qed.
Lemma load_le_app m a n1 n2 : load_le m a (n1 + n2) = load_le m a n1 + 2 ^ (8 * Z.of_nat n1) * load_le m (a + Z.of_nat n1) n2.
Proof.
  revert a. induction n1 as [|n1 IH]; intros a; cbn [Nat.add load_le].
  - rewrite Z.add_0_r. change (8 * Z.of_nat 0) with 0. rewrite Z.pow_0_r. lia.
  - rewrite IH. replace (8 * Z.of_nat (S n1)) with (8 + 8 * Z.of_nat n1) by lia. rewrite Z.pow_add_r by lia.
    replace (a + Z.of_nat (S n1)) with (a + 1 + Z.of_nat n1) by lia. change (2 ^ 8) with 256. lia.
Qed.
(** Word [j] of an n-word load is the word at that address. *)
Lemma db_word_load w m a n j : wok w -> byte_mem m -> (j < n)%nat ->
  db_word w (load_le m a (Z.to_nat (xbytes w * Z.of_nat n))) j = load_le m (a + xbytes w * Z.of_nat j) (Z.to_nat (xbytes w)).
Proof.
  intros Hw Hm Hj. pose proof (xbytes_pos w Hw) as Hx. pose proof (xbytes_w w Hw) as Hx8. set (B := xbytes w) in *.
  replace (Z.to_nat (B * Z.of_nat n)) with (Z.to_nat (B * Z.of_nat j) + (Z.to_nat B + Z.to_nat (B * (Z.of_nat n - Z.of_nat j - 1))))%nat by lia.
  rewrite !load_le_app. unfold db_word. rewrite !Z2Nat.id by nia.
  replace (w * Z.of_nat j) with (8 * (B * Z.of_nat j)) by lia.
  set (P := 2 ^ (8 * (B * Z.of_nat j))). assert (0 < P) by (apply pow2_pos; nia).
  rewrite (Z.mul_comm P), Z.div_add by lia. rewrite Z.div_small.
  2:{ pose proof (load_le_range m a (Z.to_nat (B * Z.of_nat j)) Hm) as R. rewrite Z2Nat.id in R by nia. exact R. }
  rewrite Z.add_0_l. unfold wrap. rewrite Hx8, (Z.mul_comm (2 ^ w)), Z_mod_plus_full. apply Z.mod_small.
  pose proof (load_le_range m (a + B * Z.of_nat j) (Z.to_nat B) Hm) as R. rewrite Z2Nat.id, Hx8 in R by lia. exact R.
Qed.
Lemma load_sub m m' a n : (forall x, a <= x < a + Z.of_nat n -> m' x = m x) -> load_le m' a n = load_le m a n.
Proof. intros H. apply load_le_ext. exact H. Qed.

(** ** Push. *)
Definition okpush w max n sp := xbytes w * Z.of_nat n <= sp < 2 ^ w /\ sp - xbytes w * Z.of_nat n <= max.
Lemma start_wrap w n sp : wok w -> xbytes w * Z.of_nat n <= sp < 2 ^ w -> wrap 64 (sp - xbytes w * Z.of_nat n) = sp - xbytes w * Z.of_nat n.
Proof.
  intros Hw H. apply wrap_id. pose proof (xbytes_pos w Hw). unfold inw. destruct Hw as [-> | ->]; split; try lia; cbn in *; lia.
Qed.
Lemma push_gen w max pc regs spimm rlist s : wok w -> let n := length regs in okpush w max n (z_x s 2) ->
  byte_mem (z_m s) ->
  exists s', push w max pc regs spimm rlist s = (s', None) /\
    z_x s' 2 = (z_x s 2 - (spimm + stack_adj_base w rlist)) mod 2 ^ w /\
    (forall r, r <> 2 -> z_x s' r = z_x s r) /\
    (forall j, (j < n)%nat -> load_le (z_m s') (slot w (z_x s 2) n j) (Z.to_nat (xbytes w)) = (z_x s (nth j regs 0)) mod 2 ^ w) /\
    (forall x, ~ z_x s 2 - xbytes w * Z.of_nat n <= x < z_x s 2 -> z_m s' x = z_m s x) /\ byte_mem (z_m s').
Proof.
  intros Hw n [Hsp Hmax] Hm. unfold push. fold n. rewrite start_wrap by assumption.
  unfold store_memory. destruct (Z.ltb_spec max (z_x s 2 - xbytes w * Z.of_nat n)); [lia|].
  eexists. split; [reflexivity|]. cbn [z_x z_m]. pose proof (xbytes_pos w Hw) as Hx.
  split; [|split; [|split; [|split]]].
  - unfold write_reg. rewrite Z.eqb_refl. change (wrap w (z_x s 2 - wrap w (spimm + stack_adj_base w rlist)) = wrap w (z_x s 2 - (spimm + stack_adj_base w rlist))).
    apply wrap_sub_r.
  - intros r Hr. unfold write_reg. destruct (Z.eqb_spec r 2); [contradiction|reflexivity].
  - intros j Hj. pose proof (db_word_load w (store_le (z_m s) (z_x s 2 - xbytes w * Z.of_nat n) (Z.to_nat (xbytes w * Z.of_nat n)) (db_value w (map (z_x s) regs))) (z_x s 2 - xbytes w * Z.of_nat n) n j Hw
      (byte_mem_store _ _ _ _ Hm) Hj) as L.
    unfold slot. replace (z_x s 2 - xbytes w * (Z.of_nat n - Z.of_nat j)) with (z_x s 2 - xbytes w * Z.of_nat n + xbytes w * Z.of_nat j) by lia.
    rewrite <- L. rewrite load_store_same, Z2Nat.id by nia.
    rewrite Z.mod_small.
    2:{ pose proof (db_value_range w (map (z_x s) regs) Hw) as R. rewrite map_length in R. fold n in R.
        replace (8 * (xbytes w * Z.of_nat n)) with (w * Z.of_nat n); [exact R|]. pose proof (xbytes_w w Hw). nia. }
    rewrite db_word_value by (rewrite ?map_length; assumption).
    rewrite (nth_indep _ 0 (z_x s 0)) by (rewrite map_length; assumption). rewrite map_nth. reflexivity.
  - intros x Hxx. apply store_le_other. rewrite Z2Nat.id by nia. lia.
  - apply byte_mem_store, Hm.
Qed.

(** ** Pop. *)
Lemma write_list_other w v dests : forall x i r, ~ In r dests -> write_list w x dests v i r = x r.
Proof.
  induction dests as [|d l IH]; intros x i r H; [reflexivity|]. cbn [write_list]. rewrite IH by (cbn in H; tauto).
  unfold write_reg. destruct (Z.eqb_spec r d); [cbn in H; subst; tauto|reflexivity].
Qed.
Lemma write_list_nth w v dests : forall x i j, NoDup dests -> (j < length dests)%nat ->
  write_list w x dests v i (nth j dests 0) = wrap w (db_word w v (i + j)).
Proof.
  induction dests as [|d l IH]; intros x i j N Hj; cbn [length] in Hj; [lia|].
  apply NoDup_cons_iff in N as [N1 N2]. cbn [write_list]. destruct j as [|j]; cbn [nth].
  - rewrite write_list_other by exact N1. unfold write_reg. rewrite Z.eqb_refl, Nat.add_0_r. reflexivity.
  - rewrite IH by (assumption || lia). do 2 f_equal. lia.
Qed.
Lemma pop_gen w max pc g regs spimm rlist s sp : wok w -> let n := length regs in
  NoDup regs -> ~ In 2 regs -> okpush w max n sp -> byte_mem (z_m s) ->
  z_x s 2 = (sp - (spimm + stack_adj_base w rlist)) mod 2 ^ w ->
  exists s', pop_helper w max pc g (regs ++ [2]) n spimm rlist s = (s', None) /\
    z_m s' = z_m s /\ z_x s' 2 = sp /\
    (forall j, (j < n)%nat -> z_x s' (nth j regs 0) = load_le (z_m s) (slot w sp n j) (Z.to_nat (xbytes w))) /\
    (forall r, ~ In r regs -> r <> 2 -> z_x s' r = z_x s r).
Proof.
  intros Hw n N N2 [Hsp Hmax] Hm E. unfold pop_helper.
  assert (wrap w (z_x s 2 + wrap w (spimm + stack_adj_base w rlist)) = sp) as Esp.
  { rewrite E. rewrite wrap_add_r. change ((sp - (spimm + stack_adj_base w rlist)) mod 2 ^ w) with (wrap w (sp - (spimm + stack_adj_base w rlist))).
    rewrite wrap_add_l. replace (sp - (spimm + stack_adj_base w rlist) + (spimm + stack_adj_base w rlist)) with sp by lia.
    apply wrap_id. pose proof (xbytes_pos w Hw). unfold inw. lia. }
  rewrite Esp, start_wrap by assumption. unfold load_memory.
  destruct (Z.ltb_spec max (sp - xbytes w * Z.of_nat n)); [lia|].
  assert (firstn n (regs ++ [2]) = regs) as -> by (subst n; rewrite firstn_app, Nat.sub_diag, firstn_all; apply app_nil_r).
  assert (nth n (regs ++ [2]) 0 = 2) as -> by (subst n; rewrite app_nth2, Nat.sub_diag by lia; reflexivity).
  eexists. split; [reflexivity|]. cbn [z_x z_m]. split; [reflexivity|]. split; [|split].
  - unfold write_reg. rewrite Z.eqb_refl. exact Esp.
  - intros j Hj. unfold write_reg at 1. destruct (Z.eqb_spec (nth j regs 0) 2) as [X|]; [exfalso; apply N2; rewrite <- X; apply nth_In, Hj|].
    rewrite write_list_nth by assumption. cbn [Nat.add]. rewrite db_word_load by assumption.
    unfold slot. replace (sp - xbytes w * (Z.of_nat n - Z.of_nat j)) with (sp - xbytes w * Z.of_nat n + xbytes w * Z.of_nat j) by lia.
    apply wrap_id. pose proof (load_le_range (z_m s) (sp - xbytes w * Z.of_nat n + xbytes w * Z.of_nat j) (Z.to_nat (xbytes w)) Hm) as R.
    rewrite Z2Nat.id, xbytes_w in R by (assumption || pose proof (xbytes_pos w Hw); lia). exact R.
  - intros r H1 H2. unfold write_reg at 1. destruct (Z.eqb_spec r 2); [contradiction|]. apply write_list_other, H1.
Qed.

(** ** Main statements, for the register lists of the encoding. *)
Definition room (w max rlist sp : Z) :=
  let n := Z.of_nat (length (rlist_regs rlist)) in xbytes w * n <= sp < 2 ^ w /\ sp - xbytes w * n <= max.
Lemma push_main w max pc spimm rlist s : w = 32 \/ w = 64 -> 4 <= rlist <= 15 -> byte_mem (z_m s) ->
  room w max rlist (z_x s 2) ->
  let regs := rlist_regs rlist in let n := length regs in let sp := z_x s 2 in
  exists s', push w max pc (rlist_operands rlist) spimm rlist s = (s', None) /\
    z_x s' sp_reg = (sp - (frame_base w rlist + spimm)) mod 2 ^ w /\
    (forall r, r <> sp_reg -> z_x s' r = z_x s r) /\
    (forall j, (j < n)%nat -> load_le (z_m s') (slot w sp n j) (Z.to_nat (xbytes w)) = z_x s (nth j regs 0) mod 2 ^ w) /\
    (forall x, ~ sp - xbytes w * Z.of_nat n <= x < sp -> z_m s' x = z_m s x).
Proof.
  intros Hw Hr Hm Hroom regs n sp.
  destruct (push_gen w max pc (rlist_operands rlist) spimm rlist s Hw) as (s' & E & A & B & C & D & F); [|exact Hm|].
  { rewrite rlist_operands_spec by assumption. exact Hroom. }
  rewrite (rlist_operands_spec rlist Hr) in C, D. rewrite (stack_adj_spec w rlist Hw Hr) in A.
  exists s'. split; [exact E|]. split; [rewrite (Z.add_comm (frame_base w rlist)); exact A|].
  split; [exact B|]. split; [exact C|exact D].
Qed.
Lemma pop_after_push w max pc pc' g spimm rlist s s1 s2 t : w = 32 \/ w = 64 -> 4 <= rlist <= 15 -> byte_mem (z_m s) ->
  room w max rlist (z_x s 2) -> (forall r, 0 <= z_x s r < 2 ^ w) ->
  push w max pc (rlist_operands rlist) spimm rlist s = (s1, t) ->
  z_x s2 2 = z_x s1 2 -> byte_mem (z_m s2) ->
  (forall x, z_x s 2 - xbytes w * Z.of_nat (length (rlist_regs rlist)) <= x < z_x s 2 -> z_m s2 x = z_m s1 x) ->
  exists s3, pop w max pc' g (dests64 rlist) spimm rlist s2 = (s3, None) /\
    z_m s3 = z_m s2 /\ z_x s3 2 = z_x s 2 /\
    (forall r, In r (rlist_regs rlist) -> z_x s3 r = z_x s r) /\
    (forall r, ~ In r (rlist_regs rlist) -> r <> 2 -> z_x s3 r = z_x s2 r).
Proof.
  intros Hw Hr Hm Hroom Hx E E2 Hm2 Hframe.
  destruct (push_gen w max pc (rlist_operands rlist) spimm rlist s Hw) as (s' & E' & A & B & C & D & F); [|exact Hm|].
  { rewrite rlist_operands_spec by assumption. exact Hroom. }
  rewrite E in E'. injection E' as -> ->.
  rewrite (rlist_operands_spec rlist Hr) in C, D.
  unfold pop, dests64. rewrite app_length, rlist_operands_spec by assumption. cbn [length]. replace (length (rlist_regs rlist) + 1 - 1)%nat with (length (rlist_regs rlist)) by lia.
  destruct (rlist_nodup rlist) as (N & N2 & _).
  destruct (pop_gen w max pc' g (rlist_regs rlist) spimm rlist s2 (z_x s 2) Hw N N2 Hroom Hm2) as (s3 & P & Q & R & S & T).
  { rewrite E2. exact A. }
  exists s3. split; [exact P|]. split; [exact Q|]. split; [exact R|]. split; [|exact T].
  intros r Hin. apply (In_nth _ _ 0) in Hin as (j & Hj & <-). rewrite S by exact Hj.
  rewrite (load_sub (z_m s')).
  - rewrite C by exact Hj. apply Z.mod_small, Hx.
  - intros x Hxx. apply Hframe. unfold slot in Hxx. pose proof (xbytes_pos w Hw) as Hp. rewrite Z2Nat.id in Hxx by lia. nia.
Qed.
Lemma popret_after_push w max pc pc' g spimm rlist s s1 s2 t : w = 32 \/ w = 64 -> 4 <= rlist <= 15 -> byte_mem (z_m s) ->
  room w max rlist (z_x s 2) -> (forall r, 0 <= z_x s r < 2 ^ w) ->
  push w max pc (rlist_operands rlist) spimm rlist s = (s1, t) ->
  z_x s2 2 = z_x s1 2 -> byte_mem (z_m s2) ->
  (forall x, z_x s 2 - xbytes w * Z.of_nat (length (rlist_regs rlist)) <= x < z_x s 2 -> z_m s2 x = z_m s1 x) ->
  (exists s3, popret w max pc' g spimm rlist s2 = (s3, None, z_x s 1) /\ z_x s3 2 = z_x s 2 /\
    (forall r, In r (rlist_regs rlist) -> z_x s3 r = z_x s r)) /\
  (exists s3, popretz w max pc' g spimm rlist s2 = (s3, None, z_x s 1) /\ z_x s3 2 = z_x s 2 /\ z_x s3 10 = 0 /\
    (forall r, In r (rlist_regs rlist) -> z_x s3 r = z_x s r)).
Proof.
  intros Hw Hr Hm Hroom Hx E E2 Hm2 Hframe.
  destruct (pop_after_push w max pc pc' g spimm rlist s s1 s2 t Hw Hr Hm Hroom Hx E E2 Hm2 Hframe) as (s3 & P & Q & R & S & T).
  unfold pop in P. unfold popret, popretz. rewrite P.
  assert (In 1 (rlist_regs rlist)) as I1.
  { destruct (frame_base_bound w rlist Hw Hr) as (_ & _ & L). clear -L Hr. revert L. unfold rlist_regs.
    destruct (Z.ltb_spec rlist 4); [lia|]. intros L. destruct (Z.to_nat _) as [|k]; [cbn in L; lia|]. left. reflexivity. }
  destruct (rlist_nodup rlist) as (_ & _ & N10). split; eexists.
  - split; [rewrite (S 1 I1); reflexivity|]. split; assumption.
  - cbn [z_x]. split; [unfold write_reg at 1; cbn [Z.eqb Pos.eqb]|split; [|split]].
    + f_equal. unfold write_reg. cbn [Z.eqb Pos.eqb]. apply S, I1.
    + unfold write_reg. cbn [Z.eqb Pos.eqb]. exact R.
    + unfold write_reg. cbn [Z.eqb Pos.eqb]. apply Z.mod_0_l. destruct Hw as [-> | ->]; discriminate.
    + intros r Hin. cbn [z_x]. unfold write_reg. destruct (Z.eqb_spec r 10) as [->|]; [contradiction|]. apply S, Hin.
Qed.
Lemma mv_two_main w x r1 r2 : w = 32 \/ w = 64 -> 0 <= r1 < 8 -> 0 <= r2 < 8 -> (forall r, 0 <= x r < 2 ^ w) ->
  (let y := mv_two w (sreg_map r1) (sreg_map r2) 10 11 x in
   y 10 = x (sreg_map r1) /\ y 11 = x (sreg_map r2) /\ (forall r, r <> 10 -> r <> 11 -> y r = x r)) /\
  (r1 <> r2 ->
   let y := mv_two w 10 11 (sreg_map r1) (sreg_map r2) x in
   y (sreg_map r1) = x 10 /\ y (sreg_map r2) = x 11 /\
   (forall r, r <> sreg_map r1 -> r <> sreg_map r2 -> y r = x r)).
Proof.
  intros Hw H1 H2 Hx.
  assert (forall r, 0 <= r < 8 -> sreg_map r <> 10 /\ sreg_map r <> 11) as M.
  { intros r Hr. assert (In r (zrange_from 0 8)) as I by (apply zrange_from_in; cbn; lia). cbn in I.
    repeat (destruct I as [<-|I]; [split; discriminate|]). contradiction. }
  assert (forall r q, 0 <= r < 8 -> 0 <= q < 8 -> r <> q -> sreg_map r <> sreg_map q) as J.
  { intros r q Hr Hq. assert (In r (zrange_from 0 8)) as I by (apply zrange_from_in; cbn; lia).
    assert (In q (zrange_from 0 8)) as I' by (apply zrange_from_in; cbn; lia). cbn in I, I'.
    intros D; repeat (destruct I as [<-|I]; [repeat (destruct I' as [<-|I']; [try discriminate; congruence|]); contradiction|]). contradiction. }
  pose proof (M r1 H1) as [M1 M1']. pose proof (M r2 H2) as [M2 M2'].
  assert (forall v, wrap w (x v) = x v) as W by (intros v; apply wrap_id, Hx).
  unfold mv_two, write_reg. cbv zeta. rewrite !W. split.
  - split; [reflexivity|]. split.
    + cbn [Z.eqb Pos.eqb]. destruct (Z.eqb_spec (sreg_map r2) 10); [contradiction|apply W].
    + intros r A B. destruct (Z.eqb_spec r 11); [contradiction|]. destruct (Z.eqb_spec r 10); [contradiction|reflexivity].
  - intros D. specialize (J r1 r2 H1 H2 D). split; [|split].
    + destruct (Z.eqb_spec (sreg_map r1) (sreg_map r2)); [contradiction|]. rewrite Z.eqb_refl. reflexivity.
    + rewrite Z.eqb_refl. destruct (Z.eqb_spec 11 (sreg_map r1)) as [X|]; [symmetry in X; contradiction|apply W].
    + intros r A B. destruct (Z.eqb_spec r (sreg_map r2)); [contradiction|]. destruct (Z.eqb_spec r (sreg_map r1)); [contradiction|reflexivity].
Qed.
(** C60 *)
Lemma low6 w v : w = 32 \/ w = 64 -> Z.land (jvt_write w v) 0x3f = 0.
Proof.
  intros Hw. unfold jvt_write. apply Z.bits_inj'. intros i Hi. rewrite Z.land_spec, wrap_testbit, Z.land_spec, wnot_testbit, Z.bits_0 by (destruct Hw; lia).
  change 0x3f with (Z.ones 6). destruct (Z.ltb_spec i 6).
  - rewrite Z.ones_spec_low by lia. cbn [negb]. rewrite !andb_false_r. reflexivity.
  - rewrite Z.ones_spec_high by lia. rewrite !andb_false_r. reflexivity.
Qed.
Lemma clear_low6 w v : w = 32 \/ w = 64 -> 0 <= v < 2 ^ w -> Z.land v (wnot 64 0x3f) = v - v mod 64.
Proof.
  intros Hw Hv. replace (v - v mod 64) with (Z.shiftl (Z.shiftr v 6) 6).
  2:{ rewrite Z.shiftl_mul_pow2, Z.shiftr_div_pow2 by lia. change (2 ^ 6) with 64. pose proof (Z.div_mod v 64). lia. }
  apply Z.bits_inj'. intros i Hi. rewrite Z.land_spec, wnot_testbit, Z.shiftl_spec by lia. change 0x3f with (Z.ones 6).
  destruct (Z.ltb_spec i 6).
  - rewrite Z.ones_spec_low by lia. rewrite (Z.testbit_neg_r (Z.shiftr v 6) (i - 6)) by lia. cbn [negb]. rewrite !andb_false_r. reflexivity.
  - rewrite Z.ones_spec_high, Z.shiftr_spec by lia. replace (i - 6 + 6) with i by lia. destruct (Z.ltb_spec i 64); [apply andb_true_r|].
    rewrite (inw_testbit_high 64 v i); [reflexivity| |lia]. destruct Hw as [-> | ->]; unfold inw; [|exact Hv]. cbn in *. lia.
Qed.
Lemma jt_main w max pc g m v index : w = 32 \/ w = 64 -> 0 <= v < 2 ^ w -> byte_mem m ->
  let a := (v - v mod 64 + index * xbytes w) mod 2 ^ w in
  a <= max ->
  jt w max pc g (jvt_write w v) index m = (Some (load_le m a (Z.to_nat (xbytes w))), None).
Proof.
  intros Hw Hv Hm a Ha. unfold jt. rewrite low6 by assumption. cbn [Z.eqb].
  assert (jvt_write w v = v - v mod 64) as Ej.
  { unfold jvt_write. rewrite (clear_low6 w) by assumption. apply wrap_id. unfold inw. pose proof (Z.mod_pos_bound v 64). pose proof (Z.mod_le v 64). lia. }
  assert (Z.land (jvt_write w v) (wnot 64 63) = v - v mod 64) as ->.
  { rewrite Ej. rewrite (clear_low6 w); [|assumption|pose proof (Z.mod_pos_bound v 64); pose proof (Z.mod_le v 64); lia].
    rewrite Zminus_mod_idemp_r, Z.sub_diag, Z.mod_0_l by lia. lia. }
  change (wrap w (v - v mod 64 + index * xbytes w)) with a. unfold load_memory.
  destruct (Z.ltb_spec max a); [lia|]. reflexivity.
Qed.
