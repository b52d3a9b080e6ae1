(** Proofs for C76. *)
From Coq Require Import ZArith List String Bool Lia.
From Verif Require Import Bits FmtSpec FmtModel FmtProofs DecSpec DecManual DecModel DecCheck DecProofs DecTables DecProps IntSpec IntModel
  Memory AccessSpec AccessModel AccessProofs StepSpec StepModel StepCheck StepProofs StepTables AmoSpec AmoModel.
Import ListNotations.
Local Open Scope string_scope.
Local Open Scope Z_scope.

(** ** Comparison of a row with an instruction *)
Definition amo_op_eqb (x y : amo_op) : bool :=
  match x, y with
  | AmoSwap, AmoSwap | AmoAdd, AmoAdd | AmoXor, AmoXor | AmoAnd, AmoAnd | AmoOr, AmoOr | AmoMin, AmoMin | AmoMax, AmoMax
  | AmoMinu, AmoMinu | AmoMaxu, AmoMaxu => true
  | _, _ => false end.
Lemma amo_op_eqb_eq x y : amo_op_eqb x y = true -> x = y.
Proof. destruct x, y; intros H; try discriminate H; reflexivity. Qed.
Definition size_ok (w : Z) (n : nat) : bool := Nat.eqb n 4 || (Nat.eqb n 8 && (w =? 64)).
Definition func_ok (w : Z) (o : operation) (n : nat) (st : bool) (i : amo_instr) : bool :=
  size_ok w n &&
  match i with
  | Lr n' => Nat.eqb n n' && match o with kLoadLinked => true | _ => false end
  | Sc n' => Nat.eqb n n' && st && match o with kStoreConditional => true | _ => false end
  | Amo op n' => Nat.eqb n n' && st && match operation_amo o with Some op' => amo_op_eqb op op' | None => false end
  end.
Definition amo_row_ok (S : simulator) (r : row) (ir : irow) (i : amo_instr) : bool :=
  (i_size ir =? 4) && is_dst S false r ir 0 (Rd o_rd) && is_src S false ir 0 (Reg o_rs1) &&
  match assoc amo_funcs (i_sem ir), assoc semfuncs (i_child ir) with
  | Some (o, n, st), Some (SemLoadChild aw k) =>
      func_ok (s_xlen S) o n st i && (aw =? s_xlen S) && load_eqb k (amo_kind n) && (negb st || is_src S false ir 1 (Reg o_rs2))
  | _, _ => false
  end.
Definition amo_table_ok (S : simulator) (D : decoder_spec) (rows : list row) : bool :=
  forallb (fun e => match amo_semantics (s_xlen S) (mnemonic e) with
    | Some i => let ops := related D e in
        forallb (fun r => if existsb (String.eqb (r_name r)) ops then
          match find (fun ir => String.eqb (i_name ir) (r_name r)) (amo_isa S) with
          | Some ir => amo_row_ok S r ir i | None => false end else true) rows
    | None => true end) (ds_manual D).
Lemma amo_tables_ok : forallb (fun I => amo_table_ok (im_sim I) (im_32 I) (s_rows32 (im_sim I))) simulators = true.
Proof. vm_cast_no_check (eq_refl true). Qed.

(** ** Words in memory *)
Lemma load_word m a n : byte_mem m -> word_at m a n (load_le m a n).
Proof.
  intros M. split; [exact (load_le_range m a n M) |]. intros k Hk.
  pose proof (load_le_byte m n M a (Z.to_nat k) ltac:(lia)) as B. rewrite Z2Nat.id in B by lia. exact B.
Qed.
Lemma store_word m m' a n x : 0 <= x < 2 ^ (8 * Z.of_nat n) -> (forall y, m' y = store_le m a n x y) -> stored m m' a n x.
Proof.
  intros X E. split.
  - split; [exact X |]. intros k Hk. rewrite E, store_le_same by (unfold touches; lia). replace (a + k - a) with k by lia. reflexivity.
  - intros y Hy. rewrite E. apply store_le_other, Hy.
Qed.
Lemma store_bytes_ok m a n x : byte_mem m -> byte_mem (store_le m a n x).
Proof. intros M. apply byte_mem_store, M. Qed.
Lemma amo_value_range op bits old x : 0 < bits -> 0 <= old < 2 ^ bits -> 0 <= x < 2 ^ bits -> 0 <= amo_value op bits old x < 2 ^ bits.
Proof.
  intros B O X. pose proof (pow2_pos bits ltac:(lia)).
  destruct op; cbn [amo_value]; try assumption; try (destruct (_ <? _); assumption).
  - apply Z.mod_pos_bound; lia.
  - apply inw_lxor; [lia | exact O | exact X].
  - apply inw_land_l; [lia | exact O].
  - apply inw_lor; [lia | exact O | exact X].
Qed.
Lemma kind_bytes w n : size_ok w n = true -> load_bytes (amo_kind n) = n /\ (w = 32 \/ w = 64 -> load_exists w (amo_kind n)) /\ (n = 4%nat \/ n = 8%nat).
Proof.
  unfold size_ok. intros H. apply orb_true_iff in H. destruct H as [H | H].
  - apply Nat.eqb_eq in H. subst n. split; [reflexivity |]. split; [| left; reflexivity].
    intros _. right. split; discriminate.
  - apply andb_true_iff in H. destruct H as [H E]. apply Nat.eqb_eq in H. apply Z.eqb_eq in E. subst n w. split; [reflexivity |].
    split; [intros _; left; reflexivity | right; reflexivity].
Qed.

Lemma child_nonzero w n v : w = 32 \/ w = 64 -> size_ok w n = true -> 0 <= v < 2 ^ (8 * Z.of_nat n) -> v <> 0 ->
  load_child w (amo_kind n) v <> 0.
Proof.
  intros XL SO V NZ. destruct (kind_bytes _ _ SO) as (_ & _ & NN). assert (BW : 8 * Z.of_nat n <= w).
  { unfold size_ok in SO. apply orb_true_iff in SO. destruct SO as [E | E]; [apply Nat.eqb_eq in E; subst n; destruct XL; subst w; discriminate |].
    apply andb_true_iff in E. destruct E as [E F]. apply Nat.eqb_eq in E. apply Z.eqb_eq in F. subst n w. discriminate. }
  unfold load_child. assert (LS : ld_signed (amo_kind n) = true) by (destruct NN; subst n; reflexivity). rewrite LS.
  assert (LZ : ld_size (amo_kind n) = n) by (destruct NN; subst n; reflexivity). rewrite LZ.
  intros E. apply NZ. assert (E2 : wrap (8 * Z.of_nat n) (wrap w (sgn (8 * Z.of_nat n) v)) = v).
  { unfold wrap. rewrite <- Znumtheory.Zmod_div_mod; [| apply pow2_pos; lia | apply pow2_pos; destruct XL; lia | exists (2 ^ (w - 8 * Z.of_nat n)); rewrite <- Z.pow_add_r by lia; f_equal; lia].
    change (wrap (8 * Z.of_nat n) (sgn (8 * Z.of_nat n) v) = v). rewrite wrap_sgn by lia. apply wrap_id. exact V. }
  rewrite E in E2. rewrite <- E2. unfold wrap. apply Z.mod_0_l. pose proof (pow2_pos (8 * Z.of_nat n) ltac:(lia)). lia.
Qed.

(** ** A row *)
Section Row.
Variables (S : simulator) (perform : atomic_memory) (iw : Z) (h : hart) (r : row) (ir : irow) (i : amo_instr).
Let xl := s_xlen S.
Hypothesis XL : s_xlen S = 32 \/ s_xlen S = 64.
Hypothesis OK : hart_ok (s_xlen S) h.
Hypothesis AP : applies r iw = true.
Hypothesis RO : amo_row_ok S r ir i = true.
Hypothesis PO : atomic_ok perform.

Lemma hart_ok_m m : byte_mem m -> hart_ok (s_xlen S) (set_m h m).
Proof. intros M. destruct OK. constructor; cbn [set_m hx hf hpc hm]; assumption. Qed.
Lemma byte_mem_ext m m' : byte_mem m -> (forall y, m' y = m y) -> byte_mem m'.
Proof. intros M E y. rewrite E. apply M. Qed.

Lemma reg_src s o : src_ok false s (Reg o) = true -> exists n, encodes o iw n /\ src_value h iw s = hx h n.
Proof.
  intros H. pose proof (src_value_ok S false iw h r XL OK AP s (Reg o) H) as (n & N & E). exists n. split; [exact N |].
  rewrite <- E. symmetry. apply wrap_id. exact (reg_value S false 0 iw h r XL OK AP s (Reg o) eq_refl H).
Qed.
Lemma child_done m v d : byte_mem m -> dst_ok false r d (Rd o_rd) = true -> 0 <= v < 2 ^ xl ->
  exists h' rd, write_x (set_m h m) iw d v = Some h' /\ encodes o_rd iw rd /\ next xl 4 h' = Some (Done (set_pc xl h' (hpc h + 4))) /\
    let h2 := set_pc xl h' (hpc h + 4) in
    writes_x h h2 rd v /\ keeps_f h h2 /\ hpc h2 = (hpc h + 4) mod 2 ^ xl /\ (forall y, hm h2 y = m y) /\ hart_ok xl h2.
Proof.
  intros M D V. pose proof (hart_ok_m m M) as OKm.
  destruct (write_some false iw (set_m h m) r d (Rd o_rd) v D) as [h' W].
  destruct (write_ok S false iw (set_m h m) r XL OKm AP d (Rd o_rd) v h' D W V) as (n & N & (W1 & W2 & W3) & (F1 & F2) & KM & PC & OK').
  exists h', n. split; [exact W |]. split; [exact N |]. split; [unfold next; rewrite PC; reflexivity |]. cbv zeta.
  split; [| split; [| split; [| split]]].
  - split; [exact W1 |]. split; [exact W2 | exact W3].
  - split; [exact F1 | exact F2].
  - reflexivity.
  - intros y. exact (KM y).
  - apply (set_pc_ok S false iw h r XL OK AP); [exact OK' |]. pose proof (ok_even _ _ OK) as E. rewrite Z.add_mod, E by lia. reflexivity.
Qed.

Lemma amo_row_good limit : (forall rs1, encodes o_rs1 iw rs1 -> aligned (hx h rs1) (amo_bytes i) /\ hx h rs1 <= limit) ->
  (exists n, encodes o_rs2 iw n) ->
  exists out, amo_exec S (Some perform) h iw ir = Some out /\ amo_executes xl limit i iw h out /\
    forall h', out = Done h' -> hart_ok xl h'.
Proof.
  intros AL (n2 & N2). pose proof RO as RO'. unfold amo_row_ok in RO'. unfold amo_exec.
  apply andb_true_iff in RO'. destruct RO' as [RO' B]. apply andb_true_iff in RO'. destruct RO' as [RO' SR].
  apply andb_true_iff in RO'. destruct RO' as [SZ DS]. apply Z.eqb_eq in SZ. rewrite SZ.
  unfold is_dst in DS. destruct (get_dst S (i_dst ir) 0) as [d |]; [| discriminate DS].
  unfold is_src in SR. destruct (get_src S (i_src ir) 0) as [s1 |]; [| discriminate SR].
  destruct (assoc amo_funcs (i_sem ir)) as [[[o n] st] |]; [| discriminate B].
  destruct (assoc semfuncs (i_child ir)) as [[] |]; try discriminate B.
  apply andb_true_iff in B. destruct B as [B S2]. apply andb_true_iff in B. destruct B as [B K].
  apply andb_true_iff in B. destruct B as [FO AW]. apply Z.eqb_eq in AW. subst aw. apply load_eqb_eq in K. subst k.
  destruct (reg_src s1 o_rs1 SR) as (n1 & N1 & E1). specialize (AL n1 N1). destruct AL as [AL LE].
  unfold func_ok in FO. apply andb_true_iff in FO. destruct FO as [SO FO]. destruct (kind_bytes _ _ SO) as (KB & KE & NN). specialize (KE XL).
  assert (NI : amo_bytes i = n).
  { destruct i; cbn [amo_bytes]; repeat (apply andb_true_iff in FO; destruct FO as [FO ?]); apply Nat.eqb_eq in FO; congruence. }
  rewrite NI in AL.
  assert (EA : wrap 64 (src_value h iw s1) = hx h n1).
  { rewrite E1. apply wrap_id. pose proof (ok_x _ _ OK n1) as X. unfold inw. destruct XL as [E | E]; rewrite E in X; [| exact X]. change (2 ^ 32) with 4294967296 in X.
    change (2 ^ 64) with 18446744073709551616. clear -X. lia. }
  set (x := if st then hx h n2 mod 2 ^ (8 * Z.of_nat n) else 0).
  assert (EX : (if st then option_map (fun s => wrap (8 * Z.of_nat n) (src_value h iw s)) (get_src S (i_src ir) 1) else Some 0) = Some x).
  { unfold x. destruct st; [| reflexivity]. cbn [negb orb] in S2. unfold is_src in S2. destruct (get_src S (i_src ir) 1) as [s2 |]; [| discriminate S2].
    destruct (reg_src s2 o_rs2 S2) as (k & Nk & Ek). cbn [option_map]. rewrite Ek. rewrite (encodes_unique_lemma o_rs2 f_RType "rs2" iw k n2 eq_refl Nk N2). reflexivity. }
  rewrite EA. cbv zeta. rewrite EX. clear EX.
  assert (XR : 0 <= x < 2 ^ (8 * Z.of_nat n)).
  { assert (B0 : 0 < 2 ^ (8 * Z.of_nat n)) by (clear -NN; destruct NN; subst n; reflexivity). unfold x. destruct st; [apply Z.mod_pos_bound; exact B0 | split; [discriminate | exact B0]]. }
  pose proof (ok_m _ _ OK) as M. pose proof (PO o n (hx h n1) x (hm h) NN AL XR M) as P. cbv zeta in P.
  pose proof (load_le_range (hm h) (hx h n1) n M) as OR.
  assert (LD : loaded xl (amo_kind n) (hm h) (hx h n1) (load_child xl (amo_kind n) (load_le (hm h) (hx h n1) n))).
  { unfold xl. rewrite load_child_ext by assumption. pose proof (extended_loaded (s_xlen S) (amo_kind n) (hm h) (hx h n1) XL KE M) as EL. rewrite KB in EL. exact EL. }
  assert (CH : forall m v, exec_child xl (set_m h m) iw (SemLoadChild xl (amo_kind n)) d v = write_x (set_m h m) iw d (load_child xl (amo_kind n) v)).
  { intros m v. unfold exec_child. destruct d; try discriminate DS; rewrite Z.eqb_refl; reflexivity. }
  assert (FIN : forall m v (Q : Prop), byte_mem m -> 0 <= load_child xl (amo_kind n) v < 2 ^ xl ->
     (forall h', (forall y, hm h' y = m y) ->
        match i with
        | Lr _ => loaded xl (amo_kind n) (hm h) (hx h n1) (load_child xl (amo_kind n) v) /\ keeps_m h h'
        | Sc _ => 0 <= load_child xl (amo_kind n) v < 2 ^ xl /\
            (load_child xl (amo_kind n) v = 0 /\ stored (hm h) (hm h') (hx h n1) n (hx h n2 mod 2 ^ (8 * Z.of_nat n)) \/
             load_child xl (amo_kind n) v <> 0 /\ keeps_m h h')
        | Amo op _ => loaded xl (amo_kind n) (hm h) (hx h n1) (load_child xl (amo_kind n) v) /\
            exists old, word_at (hm h) (hx h n1) n old /\
              stored (hm h) (hm h') (hx h n1) n (amo_value op (8 * Z.of_nat n) old (hx h n2 mod 2 ^ (8 * Z.of_nat n)))
        end) ->
     exists out, match exec_child xl (set_m h m) iw (SemLoadChild xl (amo_kind n)) d v with
                 | Some h' => next xl 4 h' | None => None end = Some out /\ amo_executes xl limit i iw h out /\
       forall h', out = Done h' -> hart_ok xl h').
  { intros m v _ Mm VR HQ. rewrite CH. destruct (child_done m _ d Mm DS VR) as (h' & rd & W & RD & NX & WX & KF & PC & HM & OK2).
    rewrite W, NX. eexists. split; [reflexivity |]. split; [| intros h2 E; injection E as <-; exact OK2].
    exists rd, n1, n2. split; [exact RD |]. split; [exact N1 |]. split; [exact N2 |]. cbv zeta. rewrite NI. unfold aligned in AL. rewrite AL. cbn [Z.eqb negb].
    replace (limit <? hx h n1) with false by (symmetry; apply Z.ltb_ge; exact LE).
    exists (load_child xl (amo_kind n) v), (set_pc xl h' (hpc h + 4)). split; [reflexivity |]. split; [exact WX |]. split; [exact KF |].
    split; [exact PC |]. apply HQ. exact HM. }
  fold xl. destruct i as [n' | n' | op n']; cbn [amo_bytes] in NI; subst n'.
  - apply andb_true_iff in FO. destruct FO as [_ FO]. destruct o; try discriminate FO.
    destruct P as (m' & -> & EM). apply (FIN m' _ True); [exact (byte_mem_ext _ _ M EM) | apply LD |].
    intros h' HM. split; [exact LD |]. intros y. rewrite HM. apply EM.
  - apply andb_true_iff in FO. destruct FO as [FO FO']. apply andb_true_iff in FO. destruct FO as [_ ST]. destruct o; try discriminate FO'. subst st.
    destruct P as (m' & v & -> & VR & EM).
    assert (LR : 0 <= load_child xl (amo_kind n) v < 2 ^ xl).
    { unfold xl. rewrite load_child_ext by assumption. apply extended_range; assumption. }
    apply (FIN m' _ True); [| exact LR |].
    + destruct (v =? 0); [exact (byte_mem_ext _ _ (store_bytes_ok _ _ _ _ M) EM) | exact (byte_mem_ext _ _ M EM)].
    + intros h' HM. split; [exact LR |]. destruct (Z.eqb_spec v 0) as [-> | NZ].
      * left. split; [unfold load_child, wrap, sgn; destruct (ld_signed _); destruct NN as [-> | ->]; unfold xl; destruct XL as [-> | ->]; reflexivity |].
        apply store_word; [exact XR |]. intros y. rewrite HM. apply EM.
      * right. split; [| intros y; rewrite HM; apply EM]. apply child_nonzero; assumption.
  - apply andb_true_iff in FO. destruct FO as [FO FO']. apply andb_true_iff in FO. destruct FO as [_ ST]. subst st.
    assert (P' : exists m', perform o n (hx h n1) x (hm h) = Replied m' (load_le (hm h) (hx h n1) n) /\
              forall y, m' y = store_le (hm h) (hx h n1) n (amo_value op (8 * Z.of_nat n) (load_le (hm h) (hx h n1) n) x) y).
    { destruct o; cbn [operation_amo] in FO', P; try discriminate FO'; apply amo_op_eqb_eq in FO'; subst op; exact P. }
    destruct P' as (m' & -> & EM). apply (FIN m' _ True); [exact (byte_mem_ext _ _ (store_bytes_ok _ _ _ _ M) EM) | apply LD |].
    intros h' HM. split; [exact LD |]. exists (load_le (hm h) (hx h n1) n). split; [apply load_word; exact M |].
    apply store_word; [apply amo_value_range; [destruct NN; subst n; reflexivity | exact OR | exact XR] |]. intros y. rewrite HM. apply EM.
Qed.
End Row.

(** ** A word *)
Section Word.
Variables (I : implementation) (iw : Z).
Hypothesis HI : In I simulators.
Hypothesis Hw : 0 <= iw < 2 ^ 32.
Hypothesis Hl : iw mod 4 = 3.
Lemma amo_word_good perform limit h e i : atomic_ok perform -> hart_ok (s_xlen (im_sim I)) h -> In e (ds_manual (im_32 I)) -> means e iw ->
  amo_semantics (s_xlen (im_sim I)) (mnemonic e) = Some i -> ~ listed (ds_missing (im_32 I)) (mnemonic e) iw ->
  (forall rs1, encodes o_rs1 iw rs1 -> aligned (hx h rs1) (amo_bytes i) /\ hx h rs1 <= limit) ->
  (exists o, sim_decodes (im_sim I) iw o) /\
  forall o, sim_decodes (im_sim I) iw o -> exists out, amo_opcode (im_sim I) (Some perform) h iw o = Some out /\
    amo_executes (s_xlen (im_sim I)) limit i iw h out /\ forall h', out = Done h' -> hart_ok (s_xlen (im_sim I)) h'.
Proof.
  intros PO OK He Me Hi NM AL.
  assert (LG : long iw = true) by (unfold long; rewrite Hl; reflexivity).
  pose proof (word_decoder I iw HI Hw) as [DEC W]. pose proof (word_decoders I iw HI Hw) as DECS.
  assert (ED : im_spec I iw = im_32 I) by (unfold im_spec, spec_of; rewrite LG; reflexivity).
  assert (ER : sim_rows (im_sim I) iw = s_rows32 (im_sim I)) by (unfold sim_rows; rewrite LG; reflexivity).
  assert (EW : word_of iw = iw) by (unfold word_of; rewrite LG; reflexivity).
  rewrite ED, ER in *. rewrite EW in W.
  destruct (proj2 (decode_complete_partial _ _ DECS iw e W He Me) NM) as (o0 & O0 & A0).
  split; [exists o0; apply sim_decodes_eq; rewrite ER, EW; exact A0 |]. intros o A. apply sim_decodes_eq in A. rewrite ER, EW in A.
  assert (R : In o (related (im_32 I) e)).
  { unfold related. apply in_app_iff. destruct (decode_unambiguous _ _ DEC iw o0 o W A0 A) as [<- | (e' & He' & _ & B & C)].
    - left. exact O0.
    - right. apply in_concat. exists (opcodes e'). split; [| exact C]. apply in_map_iff. exists e'. split; [| exact He'].
      replace (existsb _ (opcodes e')) with true; [reflexivity |]. symmetry. apply existsb_exists. exists o0. split; [exact B |].
      apply existsb_exists. exists o0. split; [exact O0 | apply String.eqb_refl]. }
  pose proof amo_tables_ok as T. rewrite forallb_forall in T. specialize (T I HI). unfold amo_table_ok in T. rewrite forallb_forall in T.
  specialize (T e He). rewrite Hi in T. cbv zeta in T. rewrite forallb_forall in T.
  destruct A as (r & Hr & AP & N). specialize (T r Hr). rewrite N in T.
  replace (existsb (String.eqb o) (related (im_32 I) e)) with true in T.
  2:{ symmetry. apply existsb_exists. exists o. split; [exact R | apply String.eqb_refl]. }
  unfold amo_opcode. destruct (find _ (amo_isa (im_sim I))) as [ir |]; [| discriminate T].
  exact (amo_row_good (im_sim I) perform iw h r ir i (proj1 (sim_cases I HI)) OK AP T PO limit AL (encodable_ok o_rs2 iw eq_refl)).
Qed.
End Word.
