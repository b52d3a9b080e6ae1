(** Proofs for C18, C19, C22, C23, C59. *)
From Coq Require Import ZArith Bool List Lia.
From Verif Require Import Bits CsrSpec CsrModel CsrProofs Memory AccessSpec AccessModel.
Import ListNotations.
Local Open Scope Z_scope.

Lemma required_mode n : Z.land (Z.shiftr n 8) 3 = csr_min_priv n.
Proof.
  unfold csr_min_priv. rewrite Z.shiftr_div_pow2 by lia. change (2 ^ 8) with 256.
  change 3 with (Z.ones 2). rewrite Z.land_ones by lia. reflexivity.
Qed.
Lemma check_permission n priv pc tvm :
  check_csr_permission n priv pc tvm = if permitted priv n tvm then None else Some (illegal pc).
Proof.
  unfold check_csr_permission, permitted. rewrite required_mode. unfold satp_number, illegal, cause_illegal.
  rewrite Z.leb_antisym. destruct (priv <? csr_min_priv n); cbn [negb andb]; [reflexivity|].
  destruct ((priv =? 1) && (n =? 384) && tvm); reflexivity.
Qed.
Lemma csr_instr_main St (f : csr_file St) i priv pc n v tvm st :
  let r := csr_exec f i priv pc n v tvm st in
  if permitted priv n tvm then
    x_trap r = None /\
    match cf_read f st n with
    | None => x_st r = st /\ x_rd r = None
    | Some old => x_rd r = (if reads_csr i then Some old else None) /\
                  x_st r = match csr_effect i v with Some o => cf_apply f st n o | None => st end
    end
  else x_st r = st /\ x_rd r = None /\ x_trap r = Some (illegal pc).
Proof.
  cbv zeta. unfold csr_exec. rewrite check_permission. destruct (permitted priv n tvm); [|repeat split].
  destruct (cf_read f st n); [destruct i|]; repeat split.
Qed.
Lemma permitted_denied priv n tvm : priv < csr_min_priv n -> permitted priv n tvm = false.
Proof. intros H. unfold permitted. destruct (Z.leb_spec (csr_min_priv n) priv); [lia|reflexivity]. Qed.

Lemma csr_run_at aw l : forall st n c, st n = Some c ->
  csr_run (simple_file aw) l st n = Some (fold_left (csr_step aw) (effects_on n l) c).
Proof.
  induction l as [|q l IH]; intros st n c E; [exact E|].
  cbn [csr_run fold_left effects_on]. unfold csr_run in IH.
  set (st1 := x_st _).
  assert (forall k, st1 k = match csr_effect (q_instr q) (q_val q) with
            | Some o => if (q_num q =? k) && permitted (q_priv q) k (q_tvm q)
                        then match st k with Some c => Some (csr_step aw c o) | None => None end else st k
            | None => st k end) as S1.
  { intros k. subst st1. pose proof (csr_instr_main _ (simple_file aw) (q_instr q) (q_priv q) (q_pc q) (q_num q) (q_val q) (q_tvm q) st) as M.
    cbv zeta in M. destruct (permitted (q_priv q) (q_num q) (q_tvm q)) eqn:P.
    - destruct M as [_ M]. cbn [cf_read simple_file] in M. destruct (st (q_num q)) as [c0|] eqn:Q.
      + destruct M as [_ ->]. destruct (csr_effect _ _) as [o|]; [|reflexivity]. cbn [cf_apply simple_file].
        rewrite (Z.eqb_sym k). destruct (Z.eqb_spec (q_num q) k) as [<-|]; [|reflexivity]. rewrite P. reflexivity.
      + destruct M as [-> _]. destruct (csr_effect _ _) as [o|]; [|reflexivity].
        destruct (Z.eqb_spec (q_num q) k) as [<-|]; [|reflexivity]. rewrite P, Q. reflexivity.
    - destruct M as [-> _]. destruct (csr_effect _ _) as [o|]; [|reflexivity].
      destruct (Z.eqb_spec (q_num q) k) as [<-|]; [|reflexivity]. rewrite P. reflexivity. }
  specialize (S1 n). rewrite E in S1. destruct (csr_effect _ _) as [o|].
  - destruct ((q_num q =? n) && _); rewrite (IH _ _ _ S1); reflexivity.
  - rewrite (IH _ _ _ S1). reflexivity.
Qed.
Lemma csr_history_prog aw l st n c : st n = Some c -> csr_wf c -> cs_w c <= aw ->
  exists c', csr_run (simple_file aw) l st n = Some c' /\
  forall i, 0 <= i ->
    Z.testbit (as_uint aw c') i =
    (i <? cs_w c) && Z.testbit (cs_rmask c) i &&
    (if Z.testbit (cs_wmask c) i then bit_run i (Z.testbit (cs_value c) i) (effects_on n l)
     else Z.testbit (cs_value c) i).
Proof.
  intros E W A. exists (fold_left (csr_step aw) (effects_on n l) c). split; [apply csr_run_at, E|].
  intros i Hi. apply csr_history_main; assumption.
Qed.
Lemma csr_unknown_stays aw l : forall st n, st n = None -> csr_run (simple_file aw) l st n = None.
Proof.
  induction l as [|q l IH]; intros st n E; [exact E|]. cbn [csr_run fold_left]. unfold csr_run in IH. apply IH.
  unfold csr_exec. destruct (check_csr_permission _ _ _ _); [exact E|].
  destruct (cf_read _ _ _) eqn:R; [|exact E].
  destruct (q_instr q); cbn [x_st cf_apply simple_file]; rewrite ?E; try destruct (_ =? _); try exact E; reflexivity.
Qed.

(** C19 *)
Lemma check_first max code pc l :
  match check_addresses max code pc l with
  | None => Forall (fun x => x <= max) l
  | Some t => exists a, first_above max l a /\ t = {| t_tval := a; t_code := code; t_epc := pc |}
  end.
Proof.
  induction l as [|a l IH]; cbn [check_addresses]; [constructor|].
  destruct (Z.ltb_spec max a).
  - exists a. split; [|reflexivity]. exists [], l. repeat split; [assumption|constructor].
  - destruct (check_addresses max code pc l) as [t|].
    + destruct IH as (b & (l1 & l2 & -> & Hb & F) & ->). exists b. split; [|reflexivity].
      exists (a :: l1), l2. repeat split; [assumption|constructor; assumption].
    + constructor; assumption.
Qed.
Lemma store_fold n : forall els m x,
  fold_left (fun m (p : Z * bool * Z) => if snd (fst p) then store_le m (fst (fst p)) n (snd p) else m) els m x
  = byte_after n m els x.
Proof.
  unfold byte_after.
  induction els as [|e els IH] using rev_ind; intros m x; [reflexivity|].
  rewrite fold_left_app, rev_app_distr. cbn [rev app fold_left find].
  destruct e as [[a act] v]. unfold covers at 1. cbn [fst snd].
  destruct act; cbn [andb]; [|apply IH].
  destruct ((a <=? x) && (x <? a + Z.of_nat n)) eqn:C.
  - apply andb_true_iff in C as [C1 C2]. apply Z.leb_le in C1. apply Z.ltb_lt in C2. rewrite store_le_same by lia. reflexivity.
  - rewrite store_le_other; [apply IH|]. intros [C1 C2]. apply Z.leb_le in C1. apply Z.ltb_lt in C2. rewrite C1, C2 in C. discriminate.
Qed.
Lemma limit_scalar max m pc a n v :
  if max <? a then
    load_memory max m pc a n = inr (load_fault a pc) /\ store_memory max m pc a n v = inr (store_fault a pc)
  else
    (exists r, load_memory max m pc a n = inl r /\
       forall m', (forall x, touches a n x -> m' x = m x) -> load_memory max m' pc a n = inl r) /\
    (exists m', store_memory max m pc a n v = inl m' /\ forall x, ~ touches a n x -> m' x = m x).
Proof.
  unfold load_memory, store_memory. destruct (max <? a); [split; reflexivity|]. split.
  - eexists. split; [reflexivity|]. intros m' H. f_equal. apply load_le_ext. exact H.
  - eexists. split; [reflexivity|]. intros x H. apply store_le_other. exact H.
Qed.
Lemma limit_vector_load max m pc addrs mask n :
  (exists a, first_above max addrs a /\ load_vector max m pc addrs mask n = inr (load_fault a pc)) \/
  (Forall (fun x => x <= max) addrs /\
   load_vector max m pc addrs mask n =
   inl (map (fun p : Z * bool => if snd p then Some (load_le m (fst p) n) else None) (combine addrs mask))).
Proof.
  unfold load_vector. pose proof (check_first max 5 pc addrs) as H. destruct (check_addresses _ _ _ _) as [t|].
  - left. destruct H as (a & F & ->). exists a. split; [exact F|reflexivity].
  - right. split; [exact H|reflexivity].
Qed.
Lemma limit_vector_store max m pc addrs mask n vals :
  (exists a, first_above max addrs a /\ store_vector max m pc addrs mask n vals = inr (store_fault a pc)) \/
  (Forall (fun x => x <= max) addrs /\
   exists m', store_vector max m pc addrs mask n vals = inl m' /\
   forall x, m' x = byte_after n m (combine (combine addrs mask) vals) x).
Proof.
  unfold store_vector. pose proof (check_first max 7 pc addrs) as H. destruct (check_addresses _ _ _ _) as [t|].
  - left. destruct H as (a & F & ->). exists a. split; [exact F|reflexivity].
  - right. split; [exact H|]. eexists. split; [reflexivity|]. intros x. apply store_fold.
Qed.
Lemma set_max_bound xlen v : set_max xlen v <= v /\ set_max xlen v <= (if xlen =? 32 then 2 ^ 38 - 1 else 2 ^ 56 - 1) /\
  (v <= (if xlen =? 32 then 2 ^ 38 - 1 else 2 ^ 56 - 1) -> set_max xlen v = v).
Proof. unfold set_max. destruct (xlen =? 32); cbn -[Z.min]; lia. Qed.

(** C22 *)
Lemma land_even w x : 1 <= w -> Z.land (wrap w x) (wnot w 1) = even_part (wrap w x).
Proof.
  intros Hw. unfold even_part. set (y := wrap w x). assert (inw w y) as Hy by (apply wrap_range; lia).
  replace (y - y mod 2) with (Z.shiftl (Z.shiftr y 1) 1).
  2:{ rewrite Z.shiftl_mul_pow2, Z.shiftr_div_pow2 by lia. change (2 ^ 1) with 2. pose proof (Z.div_mod y 2). lia. }
  apply Z.bits_inj'. intros i Hi. rewrite Z.land_spec, wnot_testbit, Z.shiftl_spec by lia.
  destruct (Z.eq_dec i 0) as [->|].
  - rewrite (Z.testbit_neg_r (Z.shiftr y 1) (0 - 1)) by lia. change (Z.testbit 1 0) with true. cbn [negb]. rewrite !andb_false_r. reflexivity.
  - rewrite Z.shiftr_spec by lia. replace (i - 1 + 1) with i by lia. change 1 with (2 ^ 0) at 1.
    rewrite Z.pow2_bits_false by lia. cbn [negb]. rewrite andb_true_r.
    destruct (Z.ltb_spec i w); [apply andb_true_r|]. rewrite (inw_testbit_high w y i) by (assumption || lia). reflexivity.
Qed.
Lemma land_3 x : Z.land x 3 = x mod 4.
Proof. change 3 with (Z.ones 2). rewrite Z.land_ones by lia. reflexivity. Qed.
Lemma do_jump_spec w misa pc size target : 0 < w ->
  do_jump w misa pc size target = jump_spec (jump_has_c misa) target ((pc + size) mod 2 ^ w) pc.
Proof. intros Hw. unfold do_jump, jump_spec, misaligned. rewrite land_3. reflexivity. Qed.
Lemma jal_main w misa pc size offset : w = 32 \/ w = 64 ->
  jal w misa pc size offset =
  jump_spec (jump_has_c misa) (even_part ((pc + offset) mod 2 ^ w)) ((pc + size) mod 2 ^ w) pc.
Proof.
  intros Hw. unfold jal. rewrite do_jump_spec by lia. f_equal. destruct Hw as [-> | ->]; cbn [Z.eqb Pos.eqb].
  - change (2 ^ 32) with (2 ^ 32). rewrite (Z.add_comm pc). change ((offset + pc) mod 2 ^ 32) with (wrap 32 (offset + pc)).
    rewrite <- land_even by lia. apply (inw_eq_bits 32); [lia|apply wrap_range; lia|apply inw_land_l, wrap_range; lia|].
    intros i Hi. rewrite wrap_testbit, !Z.land_spec, !wrap_testbit, !wnot_testbit by lia.
    destruct (Z.ltb_spec i 32), (Z.ltb_spec i 64); lia || reflexivity.
  - change (wrap 64 (Z.shiftl (2 ^ 64 - 1) 1)) with (wnot 64 1). rewrite land_even by lia. rewrite (Z.add_comm pc). reflexivity.
Qed.
Lemma jalr_main w misa pc size base offset : w = 32 \/ w = 64 ->
  jalr w misa pc size base offset =
  jump_spec (jump_has_c misa) (even_part ((base + offset) mod 2 ^ w)) ((pc + size) mod 2 ^ w) pc.
Proof.
  intros Hw. unfold jalr. rewrite do_jump_spec by lia. f_equal.
  change (wrap 64 (Z.shiftl (2 ^ 64 - 1) 1)) with (wnot 64 1).
  destruct Hw as [-> | ->]; cbn [Z.eqb Pos.eqb]; rewrite land_even, (Z.add_comm offset) by lia; reflexivity.
Qed.
Lemma branch_cond_taken w c a b : branch_cond w c a b = taken w c a b.
Proof. destruct c; cbn [branch_cond taken]; rewrite ?Z.geb_leb; reflexivity. Qed.
(** Everything except the trap value. *)
Lemma branch_main w v c pc a b offset :
  branch_exec w (Some v) c pc a b offset = Some
   (if taken w c a b then
      let target := (pc + offset) mod 2 ^ w in
      if misaligned (negb (Z.land v 4 =? 0)) target
      then {| c_pc := None; c_link := None;
              c_trap := Some {| t_tval := pc; t_code := cause_misaligned_fetch; t_epc := pc |} |}
      else {| c_pc := Some target; c_link := None; c_trap := None |}
    else fall_through).
Proof.
  unfold branch_exec, misaligned. rewrite branch_cond_taken. destruct (taken w c a b); [|reflexivity].
  cbv zeta. rewrite land_3, negb_involutive, (Z.add_comm offset). unfold wrap. destruct (_ && _); reflexivity.
Qed.

(** C23 *)
Lemma ld_size_spec k : ld_size k = load_bytes k. Proof. destruct k; reflexivity. Qed.
Lemma ld_signed_spec k : ld_signed k = load_signed k. Proof. destruct k; reflexivity. Qed.
Lemma st_size_spec k : st_size k = store_bytes k. Proof. destruct k; reflexivity. Qed.
Lemma eff_address_spec w base offset : 1 <= w -> eff_address w base offset = (base + offset) mod 2 ^ w.
Proof.
  intros H. unfold eff_address. rewrite <- (wrap_add_r w base (sgn w offset)), wrap_sgn, wrap_add_r by lia. reflexivity.
Qed.
Lemma load_child_ext w k v : w = 32 \/ w = 64 -> load_exists w k -> load_child w k v = extended w k v.
Proof.
  intros Hw He. unfold load_child, extended. rewrite ld_size_spec, ld_signed_spec.
  destruct (load_signed k) eqn:S; [reflexivity|].
  apply wrap_id. apply (inw_weaken (8 * Z.of_nat (load_bytes k))).
  - destruct k, Hw as [-> | ->]; cbn in *; try discriminate; try lia; destruct He as [|[]]; congruence || lia.
  - apply wrap_range. lia.
Qed.
Lemma bytes_le_w w k : w = 32 \/ w = 64 -> load_exists w k -> 8 <= 8 * Z.of_nat (load_bytes k) <= w.
Proof. intros Hw He. destruct k, Hw as [-> | ->]; cbn; try lia; destruct He as [|[]]; congruence || lia. Qed.
Lemma extended_range w k v : w = 32 \/ w = 64 -> load_exists w k -> inw w (extended w k v).
Proof.
  intros Hw He. unfold extended. pose proof (bytes_le_w w k Hw He). destruct (load_signed k).
  - apply (wrap_range w). lia.
  - apply (inw_weaken (8 * Z.of_nat (load_bytes k))); [lia|]. apply (wrap_range (8 * Z.of_nat (load_bytes k))). lia.
Qed.
Lemma extended_loaded w k m a : w = 32 \/ w = 64 -> load_exists w k -> byte_mem m ->
  loaded w k m a (extended w k (load_le m a (load_bytes k))).
Proof.
  intros Hw He Hm. split; [apply extended_range; assumption|]. intros i Hi top.
  pose proof (bytes_le_w w k Hw He) as Hb. unfold extended.
  set (B := 8 * Z.of_nat (load_bytes k)) in *.
  destruct (load_signed k).
  - change (Z.testbit (wrap w (sgn B (load_le m a (load_bytes k)))) i = 
      (if i <=? top then Z.testbit (m (a + i / 8)) (i mod 8) else true && Z.testbit (m (a + top / 8)) (top mod 8))).
    rewrite wrap_testbit, sgn_testbit by lia. destruct (Z.ltb_spec i w); [|lia]. cbn [andb].
    destruct (Z.leb_spec i top), (Z.ltb_spec i B); subst top; try lia;
      rewrite load_le_bit by (assumption || lia); reflexivity.
  - change (Z.testbit (wrap B (load_le m a (load_bytes k))) i = 
      (if i <=? top then Z.testbit (m (a + i / 8)) (i mod 8) else false)).
    rewrite wrap_testbit by lia.
    destruct (Z.leb_spec i top), (Z.ltb_spec i B); subst top; try lia; cbn [andb]; try reflexivity.
    apply load_le_bit; [assumption|lia].
Qed.
Lemma load_main w max m k pc base offset : w = 32 \/ w = 64 -> load_exists w k -> byte_mem m ->
  let a := (base + offset) mod 2 ^ w in
  (max < a -> load_exec w max m k pc base offset = inr (load_fault a pc)) /\
  (a <= max -> exists r, load_exec w max m k pc base offset = inl r /\ loaded w k m a r).
Proof.
  intros Hw He Hm a. unfold load_exec. rewrite eff_address_spec by lia. fold a. unfold load_memory.
  destruct (Z.ltb_spec max a); split; intros; try lia; [reflexivity|].
  rewrite load_child_ext, ld_size_spec by assumption. eexists. split; [reflexivity|]. apply extended_loaded; assumption.
Qed.
Lemma store_le_wrap m a n v x : store_le m a n (v mod 2 ^ (8 * Z.of_nat n)) x = store_le m a n v x.
Proof.
  unfold store_le. destruct ((a <=? x) && (x <? a + Z.of_nat n)) eqn:C; [|reflexivity].
  apply andb_true_iff in C as [C1 C2]. apply Z.leb_le in C1. apply Z.ltb_lt in C2.
  change 256 with (2 ^ 8). apply (inw_eq_bits 8); [lia|apply (wrap_range 8); lia|apply (wrap_range 8); lia|].
  intros i Hi. rewrite !Z.mod_pow2_bits_low, !Z.div_pow2_bits, Z.mod_pow2_bits_low by lia. reflexivity.
Qed.
Lemma store_main w max m k pc base offset v : w = 32 \/ w = 64 -> store_exists w k ->
  let a := (base + offset) mod 2 ^ w in
  (max < a -> store_exec w max m k pc base offset v = inr (store_fault a pc)) /\
  (a <= max -> exists m', store_exec w max m k pc base offset v = inl m' /\
     (forall x, touches a (store_bytes k) x -> m' x = v / 2 ^ (8 * (x - a)) mod 256) /\
     (forall x, ~ touches a (store_bytes k) x -> m' x = m x)).
Proof.
  intros Hw He a. unfold store_exec, wrap. rewrite eff_address_spec by lia. rewrite st_size_spec. fold a. unfold store_memory.
  destruct (Z.ltb_spec max a); split; intros; try lia; [reflexivity|].
  eexists. split; [reflexivity|]. split; intros x Hx; rewrite store_le_wrap.
  - apply store_le_same, Hx.
  - apply store_le_other, Hx.
Qed.
Lemma round_trip_main w max m ks kl pc pc' base offset base' offset' v : w = 32 \/ w = 64 ->
  store_exists w ks -> load_exists w kl -> store_bytes ks = load_bytes kl ->
  (base + offset) mod 2 ^ w = (base' + offset') mod 2 ^ w -> (base + offset) mod 2 ^ w <= max ->
  exists m', store_exec w max m ks pc base offset v = inl m' /\
             load_exec w max m' kl pc' base' offset' = inl (extended w kl v).
Proof.
  intros Hw Hs Hl Hk Ha Hm. unfold store_exec, load_exec. rewrite !eff_address_spec by lia. rewrite <- Ha.
  unfold store_memory, load_memory. destruct (Z.ltb_spec max ((base + offset) mod 2 ^ w)); [lia|].
  eexists. split; [reflexivity|]. rewrite load_child_ext by assumption. f_equal. rewrite ld_size_spec, st_size_spec, <- Hk.
  rewrite load_store_same. unfold wrap. rewrite Z.mod_mod by (apply Z.pow_nonzero; lia). rewrite Hk.
  unfold extended. set (B := 8 * Z.of_nat (load_bytes kl)).
  assert (1 <= B) by (subst B; destruct kl; cbn; lia).
  change (v mod 2 ^ B) with (wrap B v). destruct (load_signed kl).
  - rewrite sgn_wrap by lia. reflexivity.
  - apply (wrap_wrap B). lia.
Qed.
