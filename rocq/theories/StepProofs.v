(** Proofs for C73: a table row that passes the comparison of StepCheck.v executes its instruction. *)
From Coq Require Import ZArith List String Bool Lia.
From Verif Require Import Bits FmtSpec FmtModel FmtProofs DecSpec DecManual DecModel IntSpec IntModel IntProps Memory
  AccessSpec AccessModel AccessProofs AccessProps StepSpec StepModel StepCheck.
Import ListNotations.
Local Open Scope string_scope.
Local Open Scope Z_scope.

Lemma iop_eqb_eq x y : iop_eqb x y = true -> x = y.
Proof. destruct x, y; cbn; intros H; try discriminate H; try reflexivity; apply Z.eqb_eq in H; subst; reflexivity. Qed.
Lemma branch_eqb_eq x y : branch_eqb x y = true -> x = y.
Proof. destruct x, y; cbn; congruence. Qed.
Lemma load_eqb_eq x y : load_eqb x y = true -> x = y.
Proof. destruct x, y; cbn; congruence. Qed.
Lemma store_eqb_eq x y : store_eqb x y = true -> x = y.
Proof. destruct x, y; cbn; congruence. Qed.

Lemma same_fixed l l' : List.length l = List.length l' ->
  forallb (fun p : (Z * bool) * (Z * bool) => let '((i, b), (j, c)) := p in (i =? j) && Bool.eqb b c) (combine l l') = true -> l = l'.
Proof.
  revert l'; induction l as [| [i b] l IH]; intros [| [j c] l'] L F; try discriminate L; [reflexivity |].
  cbn [combine forallb] in F. rewrite !andb_true_iff in F. destruct F as [[A B] F]. injection L as L.
  apply Z.eqb_eq in A. apply Bool.eqb_prop in B. subst. f_equal. apply IH; assumption.
Qed.
Lemma same_segs l l' : List.length l = List.length l' ->
  forallb (fun p => (sg_hi (fst p) =? sg_hi (snd p)) && (sg_lo (fst p) =? sg_lo (snd p)) && (sg_at (fst p) =? sg_at (snd p)))
    (combine l l') = true -> l = l'.
Proof.
  revert l'; induction l as [| [a b c] l IH]; intros [| [a' b' c'] l'] L F; try discriminate L; [reflexivity |].
  cbn [combine forallb fst snd sg_hi sg_lo sg_at] in F. rewrite !andb_true_iff in F. destruct F as [[[A B] C] F]. injection L as L.
  apply Z.eqb_eq in A, B, C. subst. f_equal. apply IH; assumption.
Qed.
Lemma same_operand_ok o o' w n : same_operand o o' = true -> encodes o w n <-> encodes o' w n.
Proof.
  unfold same_operand. rewrite !andb_true_iff. intros [[[[[A B] C] C'] D] D'].
  apply Bool.eqb_prop in A. apply Z.eqb_eq in B, C', D'.
  apply Nat2Z.inj in C', D'. apply same_fixed in C; [| assumption]. apply same_segs in D; [| assumption].
  unfold encodes, legal. rewrite A, B, C, D. tauto.
Qed.

Lemma encodes_fits o iw n : fits true o = true -> encodes o iw n -> encodes o (iw mod 2 ^ 16) n.
Proof.
  unfold fits. cbn [negb orb]. intros F [L E]. split; [exact L |]. intros s Hs j Hj. rewrite (E s Hs j Hj).
  rewrite forallb_forall in F. specialize (F s Hs). apply andb_true_iff in F.
  rewrite Z.mod_pow2_bits_low by lia. reflexivity.
Qed.

Lemma encodable_ok o w : encodable o = true -> exists n, encodes o w n.
Proof.
  unfold encodable. rewrite existsb_exists. intros ([fm fld] & _ & A). exists (extract fm fld w).
  apply extract_encodes, A.
Qed.

Lemma zero_row_ok r o w : zero_row r o = true -> applies r w = true -> encodes o w 0.
Proof.
  unfold zero_row, applies. rewrite existsb_exists, forallb_forall. intros (c & Hc & E) A. specialize (A c Hc).
  destruct c as [f [] v |]; try discriminate E. apply andb_true_iff in E. destruct E as [E G].
  apply Z.eqb_eq in E. subst. cbn in A. apply Z.eqb_eq in A. rewrite <- A. apply extract_encodes, G.
Qed.

Lemma nonzero_ok o w n : nonzero o = true -> encodes o w n -> n <> 0.
Proof.
  unfold nonzero. rewrite existsb_exists. intros ([i b] & Hp & E) [[_ F] _] ->. apply andb_true_iff in E.
  destruct E as [E1 E2]. apply Z.eqb_eq in E1. cbn in E1, E2. subst. specialize (F _ _ Hp). rewrite Z.bits_0 in F. discriminate.
Qed.

Lemma imm32_value o i32 w n : imm32_ok o i32 = true -> encodes o w n ->
  (if i32 then sgn 32 n else wrap 32 n) = n.
Proof.
  unfold imm32_ok. intros H [[L _] _]. apply andb_true_iff in H. destruct H as [H1 H]. destruct (o_signed o).
  - apply andb_true_iff in H. destruct H as [-> H].
    assert (2 ^ (o_width o - 1) <= 2 ^ 31) by (apply Z.pow_le_mono_r; lia).
    apply sgn_id; [lia |]. change (2 ^ (32 - 1)) with (2 ^ 31). lia.
  - destruct i32.
    + assert (2 ^ o_width o <= 2 ^ 31) by (apply Z.pow_le_mono_r; lia).
      apply sgn_id; [lia |]. change (2 ^ (32 - 1)) with (2 ^ 31). lia.
    + assert (2 ^ o_width o <= 2 ^ 32) by (apply Z.pow_le_mono_r; lia). apply wrap_id; unfold inw. lia.
Qed.

Lemma load_word_boxed m a : byte_mem m ->
  exists x, loaded 32 Lw m a x /\ boxed x (Z.lor (wrap 64 (Z.shiftl (2 ^ 64 - 1) 32)) (load_le m a 4)).
Proof.
  intros Hm. exists (load_le m a 4). pose proof (load_le_range m a 4 Hm) as R. change (8 * Z.of_nat 4) with 32 in R.
  split.
  - split; [exact R |]. intros i Hi. cbv zeta. cbn [load_bytes load_signed]. change (8 * Z.of_nat 4 - 1) with 31.
    rewrite load_le_bit by (assumption || (change (8 * Z.of_nat 4) with 32; lia)). destruct (Z.leb_spec i 31); [reflexivity | lia].
  - change (wrap 64 (Z.shiftl (2 ^ 64 - 1) 32)) with 0xffffffff00000000. split.
    + change (2 ^ 64) with (0xffffffff00000000 + 2 ^ 32).
      assert (0xffffffff00000000 + 2 ^ 32 = 2 ^ 64) as -> by reflexivity.
      apply inw_lor; unfold inw; [lia | lia |]. change (2 ^ 32) with 4294967296 in R. change (2 ^ 64) with 18446744073709551616. lia.
    + intros i Hi. rewrite Z.lor_spec. change 0xffffffff00000000 with (Z.shiftl (2 ^ 32 - 1) 32).
      rewrite Z.shiftl_spec by lia. destruct (Z.ltb_spec i 32).
      * rewrite Z.testbit_neg_r by lia. reflexivity.
      * change (2 ^ 32 - 1) with (Z.ones 32). rewrite Z.ones_spec_low by lia. reflexivity.
Qed.

Lemma small32 n : 0 <= n < 64 -> inw 32 n.
Proof. unfold inw. lia. Qed.
Lemma small64 n : 0 <= n < 64 -> inw 64 n.
Proof. unfold inw. lia. Qed.

Section Row.
Variables (sim : simulator) (short : bool) (v max iw : Z) (h : hart) (r : row).
Let xl := s_xlen sim.
Let w := if short then iw mod 2 ^ 16 else iw.
Let size := if short then 2 else 4.
Hypothesis XL : xl = 32 \/ xl = 64.
Hypothesis OK : hart_ok xl h.
Hypothesis AP : applies r w = true.

Lemma xl_pos : 1 <= xl. Proof. destruct XL; lia. Qed.
Lemma xl_pow : 0 < 2 ^ xl. Proof. apply pow2_pos. pose proof xl_pos. lia. Qed.
Lemma zero_range : 0 <= 0 < 2 ^ xl. Proof. pose proof xl_pow. lia. Qed.
Lemma fits_encodes o n : fits short o = true -> encodes o iw n -> encodes o w n.
Proof. unfold w. destruct short; [apply encodes_fits | auto]. Qed.
Lemma field_encodes o fm fld : agrees o fm fld = true -> fits short o = true -> encodes o w (extract fm fld iw).
Proof. intros A F. apply fits_encodes; [exact F |]. apply extract_encodes, A. Qed.

Lemma xreg_range n : 0 <= hx h n < 2 ^ xl. Proof. apply (ok_x _ _ OK). Qed.
Lemma wrap_x n : wrap xl (hx h n) = hx h n.
Proof. apply wrap_id. exact (xreg_range n). Qed.
Lemma wrap_range_xl x : 0 <= wrap xl x < 2 ^ xl.
Proof. apply wrap_range. pose proof xl_pos. lia. Qed.

(** An operand that passes has the value the specification gives it. *)
Lemma src_value_ok s p : src_ok short s p = true -> opd_value xl w h p (wrap xl (src_value h iw s)).
Proof.
  destruct s as [fm fld z | fm fld | fm fld i32 | n | n], p as [o | m | o | m]; cbn [src_ok]; intros H; try discriminate H;
    cbn [src_value opd_value].
  - apply andb_true_iff in H. destruct H as [A F]. exists (extract fm fld iw). split; [apply field_encodes; assumption |].
    destruct z; cbn [andb]; [| apply wrap_x]. destruct (Z.eqb_spec (extract fm fld iw) 0) as [E | E]; [| apply wrap_x].
    rewrite E, (ok_zero _ _ OK). apply wrap_id. unfold inw. pose proof (pow2_pos xl). pose proof xl_pos. lia.
  - rewrite !andb_true_iff in H. destruct H as [[A F] I]. pose proof (field_encodes _ _ _ A F) as E.
    exists (extract fm fld iw). split; [exact E |]. rewrite (imm32_value _ _ _ _ I E). reflexivity.
  - apply andb_true_iff in H. destruct H as [A B]. apply Z.eqb_eq in A, B. subst. rewrite (ok_zero _ _ OK).
    apply wrap_id. unfold inw. pose proof (pow2_pos xl). pose proof xl_pos. lia.
  - apply andb_true_iff in H. destruct H as [A B]. apply Z.eqb_eq in A, B. subst. reflexivity.
  - apply Z.eqb_eq in H. subst. apply wrap_x.
Qed.
Lemma opd_encodable_ok p : opd_encodable p = true -> exists x, opd_value xl w h p x /\ 0 <= x < 2 ^ xl.
Proof.
  pose proof xl_pow as P.
  destruct p as [o | m | o | m]; cbn; intros H.
  - destruct (encodable_ok o w H) as [n E]. exists (hx h n). split; [eauto | apply xreg_range].
  - exists (hx h m). split; [reflexivity | apply xreg_range].
  - destruct (encodable_ok o w H) as [n E]. eexists. split; [exists n; split; [exact E | reflexivity] | apply Z.mod_pos_bound, P].
  - eexists. split; [reflexivity | apply Z.mod_pos_bound, P].
Qed.

(** Register writes. *)
Lemma write_ok d p x h' : dst_ok short r d p = true -> write_x h iw d x = Some h' -> 0 <= x < 2 ^ xl ->
  exists n, names w p n /\ writes_x h h' n x /\ keeps_f h h' /\ keeps_m h h' /\ hpc h' = hpc h /\ hart_ok xl h'.
Proof.
  assert (SX : forall n, n <> 0 -> 0 <= x < 2 ^ xl -> writes_x h (set_x h n x) n x /\ keeps_f h (set_x h n x) /\
     keeps_m h (set_x h n x) /\ hpc (set_x h n x) = hpc h /\ hart_ok xl (set_x h n x)).
  { intros n Hn Hx. split; [| split; [| split; [| split]]].
    - unfold writes_x, set_x. cbn [hx]. split; [intros; rewrite Z.eqb_refl; reflexivity |]. split; [contradiction |].
      intros k Hk. destruct (Z.eqb_spec k n); [contradiction | reflexivity].
    - split; reflexivity.
    - intros a. reflexivity.
    - reflexivity.
    - destruct OK. constructor; cbn [set_x hx hf hpc hm]; auto.
      + destruct (Z.eqb_spec 0 n); [lia | assumption].
      + intros k. destruct (Z.eqb_spec k n); auto. }
  assert (S0 : writes_x h h 0 x /\ keeps_f h h /\ keeps_m h h /\ hpc h = hpc h /\ hart_ok xl h).
  { split; [split; [contradiction | split; reflexivity] |]. split; [split; reflexivity |]. split; [intros a; reflexivity |]. auto. }
  destruct d as [fm fld z | fm fld | n | |], p as [o | m]; cbn [dst_ok write_x]; intros H E Hx; try discriminate H.
  - rewrite !andb_true_iff in H. destruct H as [[A F] Z0]. pose proof (field_encodes _ _ _ A F) as EN.
    exists (extract fm fld iw). split; [exact EN |]. injection E as <-.
    destruct (Z.eqb_spec (extract fm fld iw) 0) as [N | N].
    + destruct z; cbn [andb orb] in *; [rewrite N; exact S0 |]. destruct (nonzero_ok _ _ _ Z0 EN N).
    + rewrite andb_false_r. apply SX; assumption.
  - apply andb_true_iff in H. destruct H as [A B]. apply Z.eqb_eq in A. apply negb_true_iff, Z.eqb_neq in B. subst m.
    exists n. split; [reflexivity |]. injection E as <-. apply SX; assumption.
  - exists 0. split; [apply (zero_row_ok _ _ _ H AP) |]. injection E as <-. exact S0.
  - apply Z.eqb_eq in H. subst m. exists 0. split; [reflexivity |]. injection E as <-. exact S0.
Qed.
Lemma write_some d p x : dst_ok short r d p = true -> exists h', write_x h iw d x = Some h'.
Proof. destruct d, p; cbn; intros H; try discriminate H; eauto. Qed.
Lemma old_range d p : dst_ok short r d p = true -> 0 <= old_x h iw d < 2 ^ xl.
Proof.
  pose proof xl_pow as P.
  destruct d, p; cbn; intros H; try discriminate H; try apply xreg_range; lia.
Qed.

Lemma set_pc_ok h' pc : hart_ok xl h' -> pc mod 2 = 0 -> hart_ok xl (set_pc xl h' pc).
Proof.
  intros [] E. constructor; cbn; auto; [apply wrap_range_xl |]. unfold wrap.
  apply Z.mod_divide in E; [| lia]. destruct E as [q ->].
  destruct XL as [-> | ->]; [change (2 ^ 32) with (2 ^ 31 * 2) | change (2 ^ 64) with (2 ^ 63 * 2)];
    rewrite Z.mul_mod_distr_r by lia; apply Z.mod_mul; lia.
Qed.
Lemma next_even : (hpc h + size) mod 2 = 0.
Proof. rewrite Z.add_mod, (ok_even _ _ OK) by lia. unfold size. destruct short; reflexivity. Qed.

(** The integer operations, whichever theorem covers them. *)
Lemma alu_ok op a b rd p : op_ok xl op p = true -> iop_args_ok op b ->
  (op = Clmulr -> xl = 32 -> Z.testbit b 31 = false) ->
  0 <= a < 2 ^ xl -> 0 <= b < 2 ^ xl -> 0 <= rd < 2 ^ xl ->
  exists x, iop_exec Wrapv xl op a b rd = Some x /\ rd_rel xl op a b x.
Proof.
  unfold op_ok. rewrite andb_true_iff. intros [X O] AO CL Ha Hb Hd.
  assert (IX : in_xlen xl op).
  { apply orb_true_iff in X. destruct X as [X | X]; [left; apply Z.eqb_eq, X | right; apply negb_true_iff, X]. }
  destruct (base_op op) eqn:B1; [apply base_alu_correct; assumption |].
  destruct (muldiv_op op) eqn:B2; [apply muldiv_correct; assumption |].
  destruct (clmul_op op) eqn:B3; [apply clmul_correct_partial; assumption |].
  apply bitmanip_correct_partial; try assumption.
  - unfold bitmanip_op. rewrite B1, B2, B3. reflexivity.
  - intros ->. discriminate O.
  - intros ->. discriminate O.
Qed.
Lemma args_ok op p b : op_ok xl op p = true -> opd_value xl w h p b -> iop_args_ok op b.
Proof.
  unfold op_ok. rewrite andb_true_iff. intros [_ O] V. destruct op; cbn; try exact I; try lia.
  destruct p as [| | o |]; try discriminate O. rewrite !andb_true_iff in O. destruct O as [[S0 O] O0].
  destruct V as (n & [[L _] _] & ->). apply negb_true_iff in S0. rewrite S0 in L.
  assert (2 ^ o_width o <= 2 ^ 6) by (apply Z.pow_le_mono_r; lia). change (2 ^ 6) with 64 in *.
  rewrite Z.mod_small; [lia |]. destruct XL as [-> | ->]; lia.
Qed.
Definition Good (i : instr) (c : bool) (res : option outcome) : Prop :=
  exists out, res = Some out /\ executes xl c max size i w h out /\ forall h', out = Done h' -> hart_ok xl h'.

Lemma iop_good op d p a b va vb rd x has_c : dst_ok short r d p = true ->
  opd_value xl w h a va -> opd_value xl w h b vb -> rd_rel xl op va vb x -> rd = x ->
  Good (IOp op p a b) has_c (match write_x h iw d rd with Some h' => next xl size h' | None => None end).
Proof.
  intros D VA VB R ->. destruct (write_some d p x D) as [h' W]. rewrite W.
  destruct (write_ok d p x h' D W (proj1 R)) as (n & N & WX & KF & KM & PC & OK').
  unfold next. eexists. split; [reflexivity |]. split.
  - cbn [executes]. exists n, va, vb, x, (set_pc xl h' (hpc h' + size)). do 5 (split; [assumption || reflexivity |]).
    split; [exact WX |]. split; [exact KF |]. split; [exact KM |]. cbn. rewrite PC. reflexivity.
  - intros h'' E. injection E as <-. apply set_pc_ok; [exact OK' |]. rewrite PC. apply next_even.
Qed.
Lemma upper_good op d p o n x has_c : dst_ok short r d p = true -> encodes o w n ->
  rd_rel xl op (sgn 32 n mod 2 ^ xl) (hpc h) x ->
  Good (IUpper op p o) has_c (match write_x h iw d x with Some h' => next xl size h' | None => None end).
Proof.
  intros D E R. destruct (write_some d p x D) as [h' W]. rewrite W.
  destruct (write_ok d p x h' D W (proj1 R)) as (k & N & WX & KF & KM & PC & OK').
  unfold next. eexists. split; [reflexivity |]. split.
  - cbn [executes]. exists k, n, x, (set_pc xl h' (hpc h' + size)). do 4 (split; [assumption || reflexivity |]).
    split; [exact WX |]. split; [exact KF |]. split; [exact KM |]. cbn. rewrite PC. reflexivity.
  - intros h'' E'. injection E' as <-. apply set_pc_ok; [exact OK' |]. rewrite PC. apply next_even.
Qed.
Lemma set_pc_keeps h' pc : keeps_x h' (set_pc xl h' pc) /\ keeps_f h' (set_pc xl h' pc) /\ keeps_m h' (set_pc xl h' pc).
Proof. repeat split; intros; reflexivity. Qed.
Lemma raise_ok t : raises h t (Raise t h).
Proof. exists h. split; [reflexivity |]. repeat split; intros; reflexivity. Qed.

Definition ctl_ok (c : ctl) : Prop :=
  (forall t, c_pc c = Some t -> 0 <= t < 2 ^ xl /\ t mod 2 = 0) /\ (forall x, c_link c = Some x -> 0 <= x < 2 ^ xl).
Lemma ctl_good c link (ln : option dest) : ctl_ok c ->
  (match link with Some d => match ln with Some q => dst_ok short r d q = true | None => False end
   | None => c_link c = None end) ->
  exists out, finish_ctl xl xl size h iw link c = Some out /\
    (exists n, match ln, link with Some q, Some _ => names w q n | _, _ => True end /\
               transfers xl size h (match link with Some _ => Some n | None => None end) c out) /\
    forall h', out = Done h' -> hart_ok xl h'.
Proof.
  intros [CP CL] L. unfold finish_ctl, transfers. destruct (c_trap c) as [t |].
  - eexists. split; [reflexivity |]. split; [| discriminate].
    destruct link as [d |].
    + destruct ln as [q |]; [| contradiction].
      destruct (write_some d q 0 L) as [h' W].
      destruct (write_ok d q 0 h' L W) as (n & N & _); [apply zero_range |].
      exists n. split; [exact N | apply raise_ok].
    + exists 0. split; [destruct ln; exact I | apply raise_ok].
  - set (pc' := match c_pc c with Some p0 => p0 | None => hpc h + size end).
    assert (JP : forall k, match c_pc c with Some p0 => set_pc xl k p0 | None => set_pc xl k (hpc h + size) end = set_pc xl k pc').
    { intros k. unfold pc'. destruct (c_pc c); reflexivity. }
    cbn zeta. rewrite ?JP.
    assert (EV : pc' mod 2 = 0).
    { unfold pc'. destruct (c_pc c) as [t |]; [apply (CP t eq_refl) | apply next_even]. }
    assert (PC : wrap xl pc' = match c_pc c with Some t => t | None => (hpc h + size) mod 2 ^ xl end).
    { unfold pc'. destruct (c_pc c) as [t |]; [apply wrap_id; apply (CP t eq_refl) | reflexivity]. }
    destruct (c_link c) as [l |] eqn:EL.
    + destruct link as [d |]; [| discriminate L]. destruct ln as [q |]; [| contradiction].
      destruct (write_some d q l L) as [h' W]. rewrite W.
      destruct (write_ok d q l h' L W (CL l eq_refl)) as (n & N & WX & KF & KM & PC' & OK').
      rewrite JP. eexists. split; [reflexivity |]. split.
      * exists n. split; [exact N |]. eexists. split; [reflexivity |]. split; [exact KF |]. split; [exact KM |].
        split; [exact PC | exact WX].
      * intros h'' E. injection E as <-. apply set_pc_ok; assumption.
    + assert (G : exists h', Some (Done (set_pc xl h pc')) = Some (Done h') /\ keeps_f h h' /\ keeps_m h h' /\
        hpc h' = match c_pc c with Some t => t | None => (hpc h + size) mod 2 ^ xl end /\ keeps_x h h').
      { eexists. split; [reflexivity |]. split; [split; reflexivity |]. split; [intros a; reflexivity |]. split; [exact PC | intros k; reflexivity]. }
      eexists. split; [reflexivity |]. split; [| intros h'' E; injection E as <-; apply set_pc_ok; assumption].
      destruct G as (h' & E & G1 & G2 & G3 & G4). injection E as E. rewrite E.
      destruct link as [d |].
      * destruct ln as [q |]; [| contradiction].
        destruct (write_some d q 0 L) as [h'' W].
        destruct (write_ok d q 0 h'' L W) as (n & N & _); [apply zero_range |].
        exists n. split; [exact N |]. exists h'. auto.
      * exists 0. split; [destruct ln; exact I |]. exists h'. auto.
Qed.
Let has_c := negb (Z.land v 4 =? 0).

Lemma range_xl n : inw xl (hx h n).
Proof. unfold inw. apply (ok_x _ _ OK). Qed.
Lemma reg_value s p : reg_opd p = true -> src_ok short s p = true -> inw xl (src_value h iw s).
Proof.
  assert (P : inw xl 0). { unfold inw. pose proof (pow2_pos xl). destruct XL; lia. }
  destruct s as [fm fld z | | | n | n], p as [o | m | |]; cbn [src_ok reg_opd src_value]; intros R H; try discriminate;
    try apply range_xl.
  - clear H. destruct (z && (extract fm fld iw =? 0)); [exact P | apply range_xl].
  - apply andb_true_iff in H. destruct H as [A _]. apply Z.eqb_eq in A. subst. exact P.
Qed.
Lemma addr_same aw base off p q : aw = xl -> src_ok short base p = true -> src_ok short off q = true ->
  eff_address aw (wrap aw (src_value h iw base)) (wrap aw (src_value h iw off)) =
  (wrap xl (src_value h iw base) + wrap xl (src_value h iw off)) mod 2 ^ xl.
Proof. intros -> _ _. rewrite eff_address_spec by (destruct XL; lia). reflexivity. Qed.
Lemma addr_wide aw base off p q : wide_ok aw q = true -> reg_opd p = true ->
  src_ok short base p = true -> src_ok short off q = true ->
  (xl = 32 -> wrap xl (src_value h iw base) + wrap xl (src_value h iw off) < 2 ^ 32) ->
  eff_address aw (wrap aw (src_value h iw base)) (wrap aw (src_value h iw off)) =
  (wrap xl (src_value h iw base) + wrap xl (src_value h iw off)) mod 2 ^ xl.
Proof.
  unfold wide_ok. rewrite andb_true_iff. intros [A W] R Hb Ho D. apply Z.eqb_eq in A. subst aw.
  pose proof (reg_value _ _ R Hb) as VB. rewrite (wrap_id xl _ VB) in *.
  destruct XL as [E | E]; [| rewrite E in *; rewrite eff_address_spec by lia; rewrite (wrap_id 64 _ VB); reflexivity].
  rewrite E in *. unfold inw in VB. specialize (D eq_refl).
  assert (inw 32 (src_value h iw off)) as VO.
  { destruct q as [| | o |]; try discriminate W. apply andb_true_iff in W. destruct W as [W1 W2].
    destruct off as [| | fm fld i32 | |]; try discriminate Ho. cbn [src_ok] in Ho. rewrite !andb_true_iff in Ho.
    destruct Ho as [[Ag F] I]. cbn [src_value]. pose proof (extract_encodes _ _ _ iw Ag) as EN.
    rewrite (imm32_value _ _ _ _ I EN). destruct EN as [[L _] _]. apply negb_true_iff in W1. rewrite W1 in L.
    clear - L W2.
    assert (0 <= o_width o \/ o_width o < 0) as [O | O] by lia; [| rewrite Z.pow_neg_r in L by exact O; lia].
    assert (2 ^ o_width o <= 2 ^ 32) by (apply Z.pow_le_mono_r; lia). unfold inw. lia. }
  clear Hb Ho W R.
  rewrite (wrap_id 32 _ VO) in *. unfold inw in VO.
  rewrite eff_address_spec by lia. rewrite !wrap_id by (unfold inw; change (2 ^ 64) with 18446744073709551616; change (2 ^ 32) with 4294967296 in *; lia).
  rewrite !Z.mod_small; [reflexivity | lia |]. change (2 ^ 64) with 18446744073709551616; change (2 ^ 32) with 4294967296 in *; lia.
Qed.

Lemma nop_keeps : let h' := set_pc xl h (hpc h + size) in
  keeps_x h h' /\ keeps_f h h' /\ keeps_m h h' /\ hpc h' = (hpc h + size) mod 2 ^ xl /\ hart_ok xl h'.
Proof.
  cbv zeta. split; [intros k; reflexivity |]. split; [split; reflexivity |]. split; [intros a; reflexivity |].
  split; [reflexivity |]. apply set_pc_ok; [exact OK |]. apply next_even.
Qed.
Lemma zero_dest_names d : zero_dest r d = true -> names w d 0.
Proof. destruct d as [o | n]; cbn; intros H; [apply (zero_row_ok _ _ _ H AP) | apply Z.eqb_eq in H; congruence]. Qed.

Lemma nop_good i : nop_ok xl r i = true -> Good i has_c (next xl size h).
Proof.
  intros H. destruct nop_keeps as (KX & KF & KM & PC & OK').
  assert (W0 : forall x, writes_x h (set_pc xl h (hpc h + size)) 0 x).
  { intros x. split; [contradiction |]. split; [intros _; apply KX | intros k _; apply KX]. }
  unfold next. eexists. split; [reflexivity |]. split; [| intros h' E; injection E as <-; exact OK'].
  destruct i; try discriminate H.
  - cbn [nop_ok] in H. rewrite !andb_true_iff in H. destruct H as [[[[O EA] EB] NC] H].
    apply negb_true_iff in NC.
    destruct (opd_encodable_ok a EA) as (va & VA & RA).
    destruct (opd_encodable_ok b EB) as (vb & VB & RB).
    destruct (alu_ok op va vb 0 b O (args_ok op b vb O VB)) as (x & _ & RX); [| exact RA | exact RB | |].
    { intros ->. discriminate NC. }
    { apply zero_range. }
    cbn [executes]. apply orb_true_iff in H. destruct H as [H | H].
    + exists 0, va, vb, x, (set_pc xl h (hpc h + size)). split; [apply zero_dest_names, H |].
      do 4 (split; [assumption || reflexivity |]). split; [apply W0 |]. auto.
    + apply andb_true_iff in H. destruct H as [HA H]. apply iop_eqb_eq in HA. subst op.
      destruct d as [o |]; [| discriminate H]. destruct a as [o' | | |]; try discriminate H.
      destruct b as [| | z |]; try discriminate H. rewrite !andb_true_iff in H. destruct H as [[EO SO] ZB].
      destruct (encodable_ok o w EO) as [n EN].
      exists n, (hx h n), 0, (hx h n), (set_pc xl h (hpc h + size)). split; [exact EN |].
      split; [exists n; split; [apply (same_operand_ok _ _ _ _ SO), EN | reflexivity] |].
      split; [exists 0; split; [apply (zero_row_ok _ _ _ ZB AP) | rewrite Z.mod_0_l; [reflexivity | apply Z.neq_sym, Z.lt_neq, xl_pow]] |].
      split; [split; [apply (ok_x _ _ OK) | cbn [iop_rel]; rewrite Z.add_0_r, Z.mod_small; [reflexivity | apply (ok_x _ _ OK)]] |].
      split; [reflexivity |]. split; [| auto]. split; [intros _; apply KX |]. split; [intros _; apply KX | intros k _; apply KX].
  - cbn [nop_ok] in H. rewrite !andb_true_iff in H. destruct H as [[[O EO] WO] Z0].
    destruct (encodable_ok o w EO) as [n EN].
    assert (exists x, rd_rel xl op (sgn 32 n mod 2 ^ xl) (hpc h) x) as [x RX].
    { pose proof xl_pow as P.
      apply orb_true_iff in O. destruct O as [O | O]; apply iop_eqb_eq in O; subst op; eexists;
        (split; [| cbn [iop_rel]; reflexivity]); apply Z.mod_pos_bound, P. }
    cbn [executes]. exists 0, n, x, (set_pc xl h (hpc h + size)). split; [apply zero_dest_names, Z0 |].
    do 3 (split; [assumption || reflexivity |]). split; [apply W0 |]. auto.
  - cbn [executes]. eexists. split; [reflexivity |]. auto.
Qed.

Lemma writes_pc h1 n x pc : writes_x h h1 n x -> writes_x h (set_pc xl h1 pc) n x.
Proof. exact (fun H => H). Qed.


(** Memory accesses. *)
Lemma load_good d p k base off s1 s2 :
  dst_ok short r d p = true -> src_ok short s1 base = true -> src_ok short s2 off = true -> load_exists xl k ->
  Good (ILoad k p base off) has_c
   (match load_memory max (hm h) (hpc h) (eff_address xl (wrap xl (src_value h iw s1)) (wrap xl (src_value h iw s2))) (load_bytes k) with
    | inl x => match write_x h iw d (load_child xl k x) with Some h' => next xl size h' | None => None end
    | inr t => Some (Raise t h) end).
Proof.
  intros D H1 H2 LE. pose proof (src_value_ok _ _ H1) as V1. pose proof (src_value_ok _ _ H2) as V2.
  rewrite (addr_same xl s1 s2 base off eq_refl H1 H2). set (b := wrap xl (src_value h iw s1)) in *.
  set (o := wrap xl (src_value h iw s2)) in *. unfold load_memory.
  destruct (max <? (b + o) mod 2 ^ xl) eqn:F.
  - destruct (write_some d p 0 D) as [h' W]. destruct (write_ok d p 0 h' D W zero_range) as (n & N & _).
    eexists. split; [reflexivity |]. split; [| discriminate]. cbn [executes]. exists n, b, o.
    split; [exact N |]. split; [exact V1 |]. split; [exact V2 |]. rewrite F. apply raise_ok.
  - set (x := load_child xl k _).
    assert (L : loaded xl k (hm h) ((b + o) mod 2 ^ xl) x).
    { unfold x. rewrite load_child_ext by assumption. apply extended_loaded; [exact XL | exact LE | apply (ok_m _ _ OK)]. }
    destruct (write_some d p x D) as [h' W]. rewrite W.
    destruct (write_ok d p x h' D W (proj1 L)) as (n & N & WX & KF & KM & PC & OK').
    eexists. split; [reflexivity |]. split.
    + cbn [executes]. exists n, b, o. split; [exact N |]. split; [exact V1 |]. split; [exact V2 |]. rewrite F.
      exists x, (set_pc xl h' (hpc h' + size)). split; [exact L |]. split; [reflexivity |]. split; [exact WX |].
      split; [exact KF |]. split; [exact KM |]. cbn. rewrite PC. reflexivity.
    + intros h'' E. injection E as <-. apply set_pc_ok; [exact OK' |]. rewrite PC. apply next_even.
Qed.

Lemma store_mem m a n x : let m' := store_le m a n (wrap (8 * Z.of_nat n) x) in
  (forall y, touches a n y -> m' y = x / 2 ^ (8 * (y - a)) mod 256) /\ (forall y, ~ touches a n y -> m' y = m y).
Proof.
  cbv zeta. unfold wrap. split; intros y Hy; rewrite store_le_wrap.
  - apply store_le_same, Hy.
  - apply store_le_other, Hy.
Qed.
Lemma store_good_pc m' : byte_mem m' -> hart_ok xl (set_pc xl (set_m h m') (hpc h + size)).
Proof.
  intros Hm. apply set_pc_ok; [| apply next_even]. destruct OK. constructor; cbn [set_m hx hf hpc hm]; assumption.
Qed.
Lemma store_good k base off p s1 s2 s3 :
  src_ok short s1 base = true -> src_ok short s2 off = true -> src_ok short s3 p = true -> reg_opd p = true ->
  Good (IStore k base off p) has_c
   (match store_exec xl max (hm h) k (hpc h) (wrap xl (src_value h iw s1)) (wrap xl (src_value h iw s2)) (src_value h iw s3) with
    | inl m => next xl size (set_m h m)
    | inr t => Some (Raise t h) end).
Proof.
  intros H1 H2 H3 R. pose proof (src_value_ok _ _ H1) as V1. pose proof (src_value_ok _ _ H2) as V2.
  pose proof (src_value_ok _ _ H3) as V3. rewrite (wrap_id _ _ (reg_value _ _ R H3)) in V3.
  unfold store_exec. rewrite (addr_same xl s1 s2 base off eq_refl H1 H2), st_size_spec. set (b := wrap xl (src_value h iw s1)) in *.
  set (o := wrap xl (src_value h iw s2)) in *. set (x := src_value h iw s3) in *. unfold store_memory.
  destruct (max <? (b + o) mod 2 ^ xl) eqn:F; (eexists; split; [reflexivity |]; split).
  - cbn [executes]. exists b, o, x. split; [exact V1 |]. split; [exact V2 |]. split; [exact V3 |]. rewrite F. apply raise_ok.
  - discriminate.
  - cbn [executes]. exists b, o, x. split; [exact V1 |]. split; [exact V2 |]. split; [exact V3 |]. rewrite F.
    eexists. split; [reflexivity |]. split; [intros n; reflexivity |]. split; [split; reflexivity |].
    split; [reflexivity |]. apply store_mem.
  - intros h' E. injection E as <-. apply store_good_pc, byte_mem_store, (ok_m _ _ OK).
Qed.

(** f registers. *)
Definition faddr (aw : Z) (s1 s2 : StepModel.src) : Prop :=
  eff_address aw (wrap aw (src_value h iw s1)) (wrap aw (src_value h iw s2)) =
  (wrap xl (src_value h iw s1) + wrap xl (src_value h iw s2)) mod 2 ^ xl.
Lemma fstore_good (dbl : bool) aw base off fs s1 s2 fm fld : hfs h <> 0 ->
  src_ok short s1 base = true -> src_ok short s2 off = true -> agrees fs fm fld = true -> fits short fs = true -> faddr aw s1 s2 ->
  Good (IFstore dbl base off fs) has_c
   (match store_exec aw max (hm h) (if dbl then Sd else Sw) (hpc h) (wrap aw (src_value h iw s1)) (wrap aw (src_value h iw s2)) (hf h (extract fm fld iw)) with
    | inl m => next xl size (set_m h m)
    | inr t => Some (Raise t h) end).
Proof.
  intros FS H1 H2 A FI AD. pose proof (src_value_ok _ _ H1) as V1. pose proof (src_value_ok _ _ H2) as V2.
  pose proof (field_encodes _ _ _ A FI) as EN.
  unfold store_exec. rewrite AD, st_size_spec. set (b := wrap xl (src_value h iw s1)) in *.
  set (o := wrap xl (src_value h iw s2)) in *. unfold store_memory. apply Z.eqb_neq in FS.
  assert (SB : store_bytes (if dbl then Sd else Sw) = if dbl then 8%nat else 4%nat) by (destruct dbl; reflexivity).
  rewrite SB.
  destruct (max <? (b + o) mod 2 ^ xl) eqn:F; (eexists; split; [reflexivity |]; split).
  - cbn [executes]. exists b, o, (extract fm fld iw). split; [exact V1 |]. split; [exact V2 |]. split; [exact EN |]. rewrite FS, F. apply raise_ok.
  - discriminate.
  - cbn [executes]. exists b, o, (extract fm fld iw). split; [exact V1 |]. split; [exact V2 |]. split; [exact EN |]. rewrite FS, F.
    eexists. split; [reflexivity |]. split; [intros n; reflexivity |]. split; [split; reflexivity |].
    split; [reflexivity |]. apply store_mem.
  - intros h' E. injection E as <-. apply store_good_pc, byte_mem_store, (ok_m _ _ OK).
Qed.
Lemma fload_good (dbl : bool) aw base off fd s1 s2 fm fld child : hfs h = 3 ->
  src_ok short s1 base = true -> src_ok short s2 off = true -> agrees fd fm fld = true -> fits short fd = true -> faddr aw s1 s2 ->
  child = (if dbl then SemLoadChild 64 Ld else SemFlwChild) ->
  Good (IFload dbl fd base off) has_c
   (match load_memory max (hm h) (hpc h) (eff_address aw (wrap aw (src_value h iw s1)) (wrap aw (src_value h iw s2))) (if dbl then 8%nat else 4%nat) with
    | inl x => match exec_child xl h iw child (DFreg fm fld) x with Some h' => next xl size h' | None => None end
    | inr t => Some (Raise t h) end).
Proof.
  intros FS H1 H2 A FI AD ->. pose proof (src_value_ok _ _ H1) as V1. pose proof (src_value_ok _ _ H2) as V2.
  pose proof (field_encodes _ _ _ A FI) as EN. rewrite AD. set (b := wrap xl (src_value h iw s1)) in *.
  set (o := wrap xl (src_value h iw s2)) in *. unfold load_memory.
  assert (FS0 : (hfs h =? 0) = false) by (apply Z.eqb_neq; rewrite FS; discriminate).
  destruct (max <? (b + o) mod 2 ^ xl) eqn:F.
  { eexists. split; [reflexivity |]. split; [| discriminate].
    cbn [executes]. exists (extract fm fld iw), b, o. split; [exact EN |]. split; [exact V1 |]. split; [exact V2 |]. rewrite FS0, F. apply raise_ok. }
  set (a := (b + o) mod 2 ^ xl) in *.
  assert (exists x, (if dbl then loaded 64 Ld (hm h) a x else exists y, loaded 32 Lw (hm h) a y /\ boxed y x) /\ 0 <= x < 2 ^ 64 /\
     exec_child xl h iw (if dbl then SemLoadChild 64 Ld else SemFlwChild) (DFreg fm fld) (load_le (hm h) a (if dbl then 8%nat else 4%nat))
     = Some (set_f h (extract fm fld iw) x)) as (x & LX & RX & ->).
  { destruct dbl.
    - exists (load_child 64 Ld (load_le (hm h) a 8)).
      assert (L : loaded 64 Ld (hm h) a (load_child 64 Ld (load_le (hm h) a 8))).
      { rewrite load_child_ext by (right; reflexivity) || (left; reflexivity). apply (extended_loaded 64 Ld); [right; reflexivity | left; reflexivity | apply (ok_m _ _ OK)]. }
      split; [exact L |]. split; [exact (proj1 L) | reflexivity].
    - destruct (load_word_boxed (hm h) a (ok_m _ _ OK)) as (y & LY & BX).
      eexists. split; [exists y; split; [exact LY | exact BX] |]. split; [exact (proj1 BX) | reflexivity]. }
  eexists. split; [reflexivity |]. split.
  - cbn [executes]. exists (extract fm fld iw), b, o. split; [exact EN |]. split; [exact V1 |]. split; [exact V2 |]. rewrite FS0. unfold a in F. rewrite F.
    exists x. eexists. split; [exact LX |]. split; [reflexivity |]. split.
    + split; [cbn [set_pc set_f hf]; rewrite Z.eqb_refl; reflexivity |]. split; [| exact FS].
      intros k Hk. cbn [set_pc set_f hf]. destruct (Z.eqb_spec k (extract fm fld iw)); [contradiction | reflexivity].
    + split; [intros k; reflexivity |]. split; [intros k; reflexivity | reflexivity].
  - intros h' E. injection E as <-. apply set_pc_ok; [| apply next_even]. destruct OK. constructor; cbn [set_f hx hf hpc hm]; auto.
    intros k. destruct (k =? extract fm fld iw); auto.
Qed.

(** Control transfers. *)
Lemma mod2_xl x : (x mod 2 ^ xl) mod 2 = x mod 2.
Proof.
  destruct XL as [-> | ->]; symmetry; apply Znumtheory.Zmod_div_mod; try lia; apply Z.mod_divide; reflexivity || lia.
Qed.
Lemma even_part_even x : even_part x mod 2 = 0.
Proof. unfold even_part. rewrite Zminus_mod_idemp_r, Z.sub_diag. reflexivity. Qed.
Lemma even_part_id x : x mod 2 = 0 -> even_part x = x.
Proof. unfold even_part. lia. Qed.
Lemma even_part_range x : 0 <= x < 2 ^ xl -> 0 <= even_part x < 2 ^ xl.
Proof. intros H. unfold even_part. assert (0 <= x mod 2 <= x) by (split; [apply Z.mod_pos_bound; lia | apply Z.mod_le; lia]). lia. Qed.
Lemma even_imm_ok p x : even_imm p = true -> opd_value xl w h p x -> x mod 2 = 0.
Proof.
  destruct p as [| | o |]; try discriminate. cbn [even_imm opd_value]. rewrite existsb_exists. intros ([i b] & Hp & E) (n & [[_ F] _] & ->).
  apply andb_true_iff in E. destruct E as [E1 E2]. cbn [fst snd] in E1, E2. apply Z.eqb_eq in E1. apply negb_true_iff in E2. subst.
  specialize (F _ _ Hp). rewrite mod2_xl, Z.mod_eq by lia. rewrite Z.bit0_odd in F. rewrite <- Z.negb_even in F. apply negb_false_iff in F.
  apply Z.even_spec in F. destruct F as [q ->]. rewrite Z.mul_comm, Z.div_mul by lia. lia.
Qed.
Lemma target_even o : o mod 2 = 0 -> ((hpc h + o) mod 2 ^ xl) mod 2 = 0.
Proof. intros E. rewrite mod2_xl, Z.add_mod, E, (ok_even _ _ OK) by lia. reflexivity. Qed.
Lemma jump_ok t l : 0 <= t < 2 ^ xl -> t mod 2 = 0 -> 0 <= l < 2 ^ xl -> ctl_ok (jump_spec has_c t l (hpc h)).
Proof.
  intros T E L. unfold jump_spec. destruct (misaligned has_c t); split; cbn; intros x Hx; try discriminate Hx; injection Hx as <-; auto.
Qed.
Lemma mod_range x : 0 <= x mod 2 ^ xl < 2 ^ xl.
Proof. apply Z.mod_pos_bound, xl_pow. Qed.
Lemma jal_good d p off s : dst_ok short r d p = true -> src_ok short s off = true -> even_imm off = true ->
  Good (IJal p off) has_c (finish_ctl xl xl size h iw (Some d) (jal xl (Some v) (hpc h) size (wrap xl (src_value h iw s)))).
Proof.
  intros D H EV. pose proof (src_value_ok _ _ H) as V. rewrite jal_correct by exact XL. set (o := wrap xl _) in *.
  pose proof (target_even o (even_imm_ok _ _ EV V)) as TE. rewrite (even_part_id _ TE).
  destruct (ctl_good (jump_spec has_c ((hpc h + o) mod 2 ^ xl) ((hpc h + size) mod 2 ^ xl) (hpc h)) (Some d) (Some p)) as (out & E & (n & N & T) & G).
  - apply jump_ok; [apply mod_range | exact TE | apply mod_range].
  - exact D.
  - exists out. split; [exact E |]. split; [| exact G]. exists n, o. auto.
Qed.
Lemma jalr_good d p base off s1 s2 : dst_ok short r d p = true -> src_ok short s1 base = true -> src_ok short s2 off = true ->
  Good (IJalr p base off) has_c
    (finish_ctl xl xl size h iw (Some d) (jalr xl (Some v) (hpc h) size (wrap xl (src_value h iw s1)) (wrap xl (src_value h iw s2)))).
Proof.
  intros D H1 H2. pose proof (src_value_ok _ _ H1) as V1. pose proof (src_value_ok _ _ H2) as V2.
  rewrite jalr_correct by exact XL. set (b := wrap xl (src_value h iw s1)) in *. set (o := wrap xl (src_value h iw s2)) in *.
  destruct (ctl_good (jump_spec has_c (even_part ((b + o) mod 2 ^ xl)) ((hpc h + size) mod 2 ^ xl) (hpc h)) (Some d) (Some p)) as (out & E & (n & N & T) & G).
  - apply jump_ok; [apply even_part_range, mod_range | apply even_part_even | apply mod_range].
  - exact D.
  - exists out. split; [exact E |]. split; [| exact G]. exists n, b, o. auto.
Qed.
Lemma branch_good c a b off s1 s2 s3 : src_ok short s1 a = true -> src_ok short s2 b = true -> src_ok short s3 off = true ->
  even_imm off = true ->
  (taken xl c (wrap xl (src_value h iw s1)) (wrap xl (src_value h iw s2)) = true ->
   misaligned has_c ((hpc h + wrap xl (src_value h iw s3)) mod 2 ^ xl) = false) ->
  Good (IBranch c a b off) has_c
    (match branch_exec xl (Some v) c (hpc h) (wrap xl (src_value h iw s1)) (wrap xl (src_value h iw s2)) (wrap xl (src_value h iw s3)) with
     | Some t => finish_ctl xl xl size h iw None t | None => None end).
Proof.
  intros H1 H2 H3 EV ND. pose proof (src_value_ok _ _ H1) as V1. pose proof (src_value_ok _ _ H2) as V2. pose proof (src_value_ok _ _ H3) as V3.
  rewrite branch_correct_partial. cbv zeta. fold has_c. set (x := wrap xl (src_value h iw s1)) in *. set (y := wrap xl (src_value h iw s2)) in *.
  set (o := wrap xl (src_value h iw s3)) in *. pose proof (target_even o (even_imm_ok _ _ EV V3)) as TE.
  destruct (taken xl c x y) eqn:T; [specialize (ND eq_refl) | clear ND].
  - rewrite ND. set (c' := {| c_pc := _; c_link := _; c_trap := _ |}).
    destruct (ctl_good c' None None) as (out & E & (n & N & TR) & G).
    + split; cbn; intros t Ht; [injection Ht as <-; split; [apply mod_range | exact TE] | discriminate Ht].
    + reflexivity.
    + exists out. split; [exact E |]. split; [| exact G]. exists x, y, o. split; [exact V1 |]. split; [exact V2 |]. split; [exact V3 |]. cbv zeta. rewrite T, ND. exact TR.
  - destruct (ctl_good fall_through None None) as (out & E & (n & N & TR) & G).
    + split; cbn; intros t Ht; discriminate Ht.
    + reflexivity.
    + exists out. split; [exact E |]. split; [| exact G]. exists x, y, o. split; [exact V1 |]. split; [exact V2 |]. split; [exact V3 |]. cbv zeta. rewrite T. exact TR.
Qed.

Ltac conj H := repeat match type of H with
  | (_ && _)%bool = true => let H' := fresh H in apply andb_true_iff in H; destruct H as [H H']; conj H' end.
Ltac getsrc H s E := unfold is_src in H; match type of H with match ?x with _ => _ end = true => destruct x as [s |] eqn:E; [| discriminate H] end.
Ltac getdst H s E := unfold is_dst in H; match type of H with match ?x with _ => _ end = true => destruct x as [s |] eqn:E; [| discriminate H] end.
Lemma is_pc_ok ir k : is_pc sim ir k = true -> get_dst sim (i_dst ir) k = Some DPc.
Proof. unfold is_pc. destruct (get_dst sim (i_dst ir) k) as [[] |]; congruence. Qed.
Lemma is_lit_ok ir k n : is_lit sim ir k n = true -> get_src sim (i_src ir) k = Some (SLit n).
Proof. unfold is_lit. destruct (get_src sim (i_src ir) k) as [[] |]; try discriminate. intros H. apply Z.eqb_eq in H. congruence. Qed.
Lemma is_fdst_ok ir k o : is_fdst sim short ir k o = true ->
  exists fm fld, get_dst sim (i_dst ir) k = Some (DFreg fm fld) /\ agrees o fm fld = true /\ fits short o = true.
Proof. unfold is_fdst. destruct (get_dst sim (i_dst ir) k) as [[] |]; try discriminate. rewrite andb_true_iff. eauto. Qed.
Lemma is_fsrc_ok ir k o : is_fsrc sim short ir k o = true ->
  exists fm fld, get_src sim (i_src ir) k = Some (SFreg fm fld) /\ agrees o fm fld = true /\ fits short o = true.
Proof. unfold is_fsrc. destruct (get_src sim (i_src ir) k) as [[] |]; try discriminate. cbn [fsrc_ok]. rewrite andb_true_iff. eauto. Qed.

(** roriw takes a six-bit immediate; only five bits matter. *)
Lemma rorw_mod a b x : rd_rel 64 Rorw a b x -> rd_rel 64 Rorw a (b mod 32) x.
Proof.
  intros [R B]. split; [exact R |]. cbn [iop_rel] in *. intros i Hi. rewrite (B i Hi). f_equal. rewrite Zplus_mod_idemp_r. reflexivity.
Qed.
Lemma shamt_low w' n6 n5 : encodes o_shamt6 w' n6 -> encodes o_shamt5 w' n5 -> n5 = n6 mod 32.
Proof.
  intros [[R6 _] E6] [[R5 _] E5]. cbn [o_signed o_width o_shamt6 o_shamt5 un] in R6, R5. change (2 ^ 5) with 32 in R5.
  rewrite <- (Z.mod_small n5 32) by exact R5. change 32 with (2 ^ 5). change (n5 mod 2 ^ 5) with (wrap 5 n5). change (n6 mod 2 ^ 5) with (wrap 5 n6).
  apply wrap_eq_bits; [lia |]. intros i Hi. specialize (E5 _ (or_introl eq_refl) i). specialize (E6 _ (or_introl eq_refl) i).
  cbn [sg_hi sg_lo sg_at] in E5, E6. rewrite Z.add_0_l in E5, E6. rewrite E5, E6 by lia. reflexivity.
Qed.

Lemma wrap_in x : 0 <= wrap xl x < 2 ^ xl.
Proof. apply wrap_range_xl. Qed.
Lemma pc_wrap : wrap xl (hpc h) = hpc h.
Proof. apply wrap_id. exact (ok_pc _ _ OK). Qed.

Lemma row_good ir i m : row_ok sim short r ir i = true -> ~ deviates xl has_c m i w h ->
  (wide sim ir = true -> In m ["c.fld"; "c.fldsp"; "c.fsdsp"]) ->
  Good i has_c (exec sim xl (Some v) max h iw ir).
Proof.
  unfold row_ok. cbv zeta. fold xl. rewrite andb_true_iff. intros [SZ H] ND WD. apply Z.eqb_eq in SZ.
  unfold exec. cbv zeta. fold xl. rewrite SZ. fold size. unfold wide in WD. fold xl in WD.
  destruct (assoc semfuncs (i_sem ir)) as [f |] eqn:F; [| discriminate H].
  assert (FA : forall aw off base s1 s2, (aw =? xl) || wide_ok aw off = true -> reg_opd base = true ->
     src_ok short s1 base = true -> src_ok short s2 off = true ->
     (negb (xl =? 64) && negb (aw =? xl) = true -> In m ["c.fld"; "c.fldsp"; "c.fsdsp"]) ->
     ~ (xl = 32 /\ In m ["c.fld"; "c.fldsp"; "c.fsdsp"] /\
        exists b o, opd_value xl w h base b /\ opd_value xl w h off o /\ 2 ^ 32 <= b + o) -> faddr aw s1 s2).
  { clear H ND F WD SZ. intros aw off base s1 s2 A R H1 H2 W N. destruct (Z.eqb_spec aw xl) as [E | E]; [apply (addr_same aw s1 s2 base off E H1 H2) |].
    cbn [orb] in A. apply (addr_wide aw s1 s2 base off A R H1 H2). intros X.
    apply Z.nle_gt. intros L. apply N. split; [exact X |]. split; [apply W; rewrite X; reflexivity |].
    eexists. eexists. split; [apply (src_value_ok _ _ H1) |]. split; [apply (src_value_ok _ _ H2) | exact L]. }
  destruct f as [aw op | aw op | aw | aw | aw op | aw | aw | aw c | aw n | aw k | | aw k | aw k |].
  - destruct i as [op' d a b | | | | | | | | |]; try discriminate H. conj H.
    apply Z.eqb_eq in H. apply iop_eqb_eq in H4. subst aw op'. rename H3 into OKO, H2 into D, H1 into A, H0 into B. getdst D dd ED. getsrc A s1 E1.
    rewrite ?E1. cbn [option_map]. rewrite Z.eqb_refl. cbn [negb].
    assert (exists s2, get_src sim (i_src ir) 1 = Some s2) as [s2 E2].
    { unfold is_src in B. destruct (get_src sim (i_src ir) 1) as [s2 |]; [eauto |]. rewrite andb_false_r in B. discriminate B. }
    rewrite E2. cbn [option_map]. unfold is_src in B. rewrite E2 in B.
    pose proof (src_value_ok _ _ A) as VA. set (x := wrap xl (src_value h iw s1)) in *.
    apply orb_true_iff in B. destruct B as [B | B].
    + pose proof (src_value_ok _ _ B) as VB. set (y := wrap xl (src_value h iw s2)) in *.
      destruct (alu_ok op x y (old_x h iw dd) b OKO (args_ok op b y OKO VB)) as (z & EX & RZ);
        [| apply wrap_in | apply wrap_in | apply (old_range dd d D) |].
      { intros -> X32. destruct (Z.testbit y 31) eqn:T; [| reflexivity]. destruct ND. cbn [deviates]. split; [exact X32 |]. eauto. }
      rewrite EX. apply (iop_good op dd d a b x y z z has_c D VA VB RZ eq_refl).
    + apply andb_true_iff in B. destruct B as [B0 B]. apply iop_eqb_eq in B0. subst op.
      destruct s2 as [| | fm fld [] | |]; try discriminate B. destruct b as [| | o |]; try discriminate B. conj B.
      assert (X64 : xl = 64). { unfold op_ok in OKO. apply andb_true_iff in OKO. destruct OKO as [O _]. cbn [rv64_only negb orb] in O. rewrite orb_false_r in O. apply Z.eqb_eq, O. }
      assert (SH : short = false) by (apply negb_true_iff; assumption).
      assert (W : w = iw) by (unfold w; rewrite SH; reflexivity).
      set (n6 := extract fm fld iw). assert (E6 : encodes o_shamt6 w n6) by (rewrite W; apply extract_encodes; assumption).
      destruct (encodable_ok o_shamt5 w eq_refl) as [n5 E5].
      assert (EO : encodes o w n5) by (apply (same_operand_ok o o_shamt5); assumption).
      pose proof (shamt_low w n6 n5 E6 E5) as LOW.
      assert (R6 : 0 <= n6 < 64) by (destruct E6 as [[L _] _]; exact L).
      cbn [src_value]. fold n6. rewrite (wrap_id 32 n6) by (apply small32, R6).
      rewrite (wrap_id xl n6) by (rewrite X64; apply small64, R6).
      destruct (alu_ok Rorw x n6 (old_x h iw dd) (Imm o) OKO I) as (z & EX & RZ);
        [discriminate | apply wrap_in | rewrite X64; apply small64, R6 | apply (old_range dd d D) |].
      rewrite EX. rewrite X64 in RZ. apply rorw_mod in RZ. rewrite <- LOW in RZ. rewrite <- X64 in RZ.
      apply (iop_good Rorw dd d a (Imm o) x n5 z z has_c D VA); [| exact RZ | reflexivity].
      exists n5. split; [exact EO |]. rewrite X64, Z.mod_small; [reflexivity |]. rewrite LOW. apply small64. pose proof (Z.mod_pos_bound n6 32 eq_refl). clear -H. lia.
  - destruct i as [op' d a b | | | | | | | | |]; try discriminate H. conj H.
    apply Z.eqb_eq in H. apply iop_eqb_eq in H4. subst aw op'. rename H3 into OKO, H2 into D, H1 into A, H0 into B. getdst D dd ED. getsrc A s1 E1.
    rewrite ?E1. cbn [option_map]. rewrite Z.eqb_refl. cbn [negb]. destruct b as [| | | b0]; try discriminate B. apply Z.eqb_eq in B. subst b0.
    pose proof (src_value_ok _ _ A) as VA. set (x := wrap xl (src_value h iw s1)) in *.
    assert (VB : opd_value xl w h (ImmN 0) 0). { cbn [opd_value]. rewrite Z.mod_0_l; [reflexivity | apply Z.neq_sym, Z.lt_neq, xl_pow]. }
    destruct (alu_ok op x 0 (old_x h iw dd) (ImmN 0) OKO (args_ok op (ImmN 0) 0 OKO VB)) as (z & EX & RZ);
      [| apply wrap_in | apply zero_range | apply (old_range dd d D) |].
    { intros -> X32. reflexivity. }
    rewrite EX. apply (iop_good op dd d a (ImmN 0) x 0 z z has_c D VA VB RZ eq_refl).
  - destruct i as [op' d a b | | | | | | | | |]; try discriminate H. destruct op'; try discriminate H. conj H.
    apply Z.eqb_eq in H. subst aw. rename H4 into OKO, H3 into D, H2 into A, H1 into B, H0 into L. getdst D dd ED. getsrc A s1 E1. getsrc B s2 E2.
    apply is_lit_ok in L. rewrite ?E1, ?E2, ?L. cbn [option_map src_value]. rewrite Z.eqb_refl. cbn [negb].
    pose proof (src_value_ok _ _ A) as VA. set (x := wrap xl (src_value h iw s1)) in *.
    pose proof (src_value_ok _ _ B) as VB. set (y := wrap xl (src_value h iw s2)) in *.
    destruct (alu_ok (ShAdd n) x y (old_x h iw dd) b OKO (args_ok (ShAdd n) b y OKO VB)) as (z & EX & RZ);
      [discriminate | apply wrap_in | apply wrap_in | apply (old_range dd d D) |].
    rewrite EX. apply (iop_good (ShAdd n) dd d a b x y z z has_c D VA VB RZ eq_refl).
  - destruct i as [op' d a b | | | | | | | | |]; try discriminate H. destruct op'; try discriminate H. conj H.
    apply Z.eqb_eq in H. subst aw. rename H4 into OKO, H3 into D, H2 into A, H1 into B, H0 into L. getdst D dd ED. getsrc A s1 E1. getsrc B s2 E2.
    apply is_lit_ok in L. rewrite ?E1, ?E2, ?L. cbn [option_map src_value]. rewrite Z.eqb_refl. cbn [negb].
    pose proof (src_value_ok _ _ A) as VA. set (x := wrap xl (src_value h iw s1)) in *.
    pose proof (src_value_ok _ _ B) as VB. set (y := wrap xl (src_value h iw s2)) in *.
    destruct (alu_ok (ShAddUw n) x y (old_x h iw dd) b OKO (args_ok (ShAddUw n) b y OKO VB)) as (z & EX & RZ);
      [discriminate | apply wrap_in | apply wrap_in | apply (old_range dd d D) |].
    rewrite EX. apply (iop_good (ShAddUw n) dd d a b x y z z has_c D VA VB RZ eq_refl).
  - destruct i as [| op' d o | | | | | | | |]; try discriminate H. conj H.
    apply Z.eqb_eq in H. apply iop_eqb_eq in H3. subst aw op'. rename H2 into OP, H1 into D, H0 into A. getdst D dd ED.
    destruct (get_src sim (i_src ir) 0) as [[| | fm fld [] | |] |] eqn:E1; try discriminate A. conj A.
    cbn [option_map]. rewrite Z.eqb_refl. cbn [negb src_value].
    pose proof (field_encodes o fm fld ltac:(assumption) ltac:(assumption)) as EN.
    rewrite pc_wrap. change (wrap xl (sgn 32 (extract fm fld iw))) with (sgn 32 (extract fm fld iw) mod 2 ^ xl).
    assert (exists z, iop_exec Wrapv xl op (sgn 32 (extract fm fld iw) mod 2 ^ xl) (hpc h) (old_x h iw dd) = Some z /\
       rd_rel xl op (sgn 32 (extract fm fld iw) mod 2 ^ xl) (hpc h) z) as (z & EX & RZ).
    { apply orb_true_iff in OP. destruct OP as [OP | OP]; apply iop_eqb_eq in OP; subst op;
        apply base_alu_correct; [exact XL | right; reflexivity | reflexivity | apply mod_range | apply (ok_pc _ _ OK) | apply (old_range dd d D)
                               | exact XL | right; reflexivity | reflexivity | apply mod_range | apply (ok_pc _ _ OK) | apply (old_range dd d D)]. }
    rewrite EX. apply (upper_good op dd d o _ z has_c D EN RZ).
  - destruct i as [| | d off | | | | | | |]; try discriminate H. conj H.
    apply Z.eqb_eq in H. subst aw. rename H3 into P, H2 into D, H1 into A, H0 into EV. apply is_pc_ok in P. getdst D dd ED. getsrc A s1 E1.
    rewrite ?P, ?E1. cbn [option_map]. rewrite Z.eqb_refl. cbn [negb]. apply (jal_good dd d off s1 D A EV).
  - destruct i as [| | | d base off | | | | | |]; try discriminate H. conj H.
    apply Z.eqb_eq in H. subst aw. rename H3 into P, H2 into D, H1 into A, H0 into B. apply is_pc_ok in P. getdst D dd ED. getsrc A s1 E1. getsrc B s2 E2.
    rewrite ?P, ?E1, ?E2. cbn [option_map]. rewrite Z.eqb_refl. cbn [negb]. apply (jalr_good dd d base off s1 s2 D A B).
  - destruct i as [| | | | c' a b off | | | | |]; try discriminate H. conj H.
    apply Z.eqb_eq in H. apply branch_eqb_eq in H5. subst aw c'. rename H4 into P, H3 into A, H2 into B, H1 into O, H0 into EV.
    apply is_pc_ok in P. getsrc A s1 E1. getsrc B s2 E2. getsrc O s3 E3.
    rewrite ?P, ?E1, ?E2, ?E3. cbn [option_map]. rewrite Z.eqb_refl. cbn [negb]. apply (branch_good c a b off s1 s2 s3 A B O EV).
    intros T. destruct (misaligned has_c _) eqn:M; [| reflexivity]. destruct ND. cbn [deviates]. do 3 eexists.
    split; [apply (src_value_ok _ _ A) |]. split; [apply (src_value_ok _ _ B) |]. split; [apply (src_value_ok _ _ O) |]. split; [exact T | exact M].
  - destruct i as [| | | | | k d base off | | dbl fd base off | |]; try discriminate H.
    + conj H. apply Z.eqb_eq in H. apply Nat.eqb_eq in H5. subst aw n. rename H4 into D, H3 into A, H2 into B, H1 into KX, H0 into CH.
      getdst D dd ED. getsrc A s1 E1. getsrc B s2 E2. rewrite ?E1, ?E2. cbn [option_map].
      destruct (assoc semfuncs (i_child ir)) as [[] |]; try discriminate CH. apply andb_true_iff in CH. destruct CH as [CA CK].
      apply Z.eqb_eq in CA. apply load_eqb_eq in CK. subst.
      assert (LE : load_exists xl k).
      { apply orb_true_iff in KX. destruct KX as [KX | KX]; [left; apply Z.eqb_eq, KX | right]. apply negb_true_iff, orb_false_iff in KX.
        destruct KX as [K1 K2]. split; intros ->; discriminate. }
      assert (EC : forall x, exec_child xl h iw (SemLoadChild xl k) dd x = write_x h iw dd (load_child xl k x)).
      { intros x. cbn [exec_child]. rewrite Z.eqb_refl. destruct dd; try reflexivity. destruct d; discriminate D. }
      pose proof (load_good dd d k base off s1 s2 D A B LE) as G.
      unfold load_memory in *. destruct (max <? _); [exact G |]. rewrite EC. exact G.
    + conj H. apply Nat.eqb_eq in H4. subst n. rename H5 into R, H3 into D, H2 into A, H1 into B, H0 into CH, H into AW.
      apply is_fdst_ok in D. destruct D as (fm & fld & ED & AG & FI). getsrc A s1 E1. getsrc B s2 E2. rewrite ?E1, ?E2, ?ED. cbn [option_map].
      cbn [deviates] in ND. apply Decidable.not_or in ND. destruct ND as [N1 N2].
      assert (FS : hfs h = 3). { destruct (Z.eq_dec (hfs h) 3); [assumption | contradiction]. }
      pose proof (FA aw off base s1 s2 AW R A B WD N2) as AD.
      destruct (assoc semfuncs (i_child ir)) as [[] |]; try discriminate CH.
      * conj CH. subst dbl. apply Z.eqb_eq in CH1. apply load_eqb_eq in CH0. subst.
        apply (fload_good true aw base off fd s1 s2 fm fld _ FS A B AG FI AD eq_refl).
      * apply negb_true_iff in CH. subst dbl. apply (fload_good false aw base off fd s1 s2 fm fld _ FS A B AG FI AD eq_refl).
  - discriminate H.
  - discriminate H.
  - destruct i as [| | | | | | k' base off p | | dbl base off fs |]; try discriminate H.
    + conj H. apply Z.eqb_eq in H. apply store_eqb_eq in H4. subst aw k'. rename H3 into A, H2 into B, H1 into C, H0 into R.
      getsrc A s1 E1. getsrc B s2 E2. getsrc C s3 E3. rewrite ?E1, ?E2, ?E3. cbn [option_map]. apply (store_good k base off p s1 s2 s3 A B C R).
    + conj H. apply store_eqb_eq in H3. subst k. rename H4 into R, H2 into A, H1 into B, H0 into C, H into AW.
      getsrc A s1 E1. getsrc B s2 E2. apply is_fsrc_ok in C. destruct C as (fm & fld & E3 & AG & FI). rewrite ?E1, ?E2, ?E3. cbn [option_map src_value].
      cbn [deviates] in ND. apply Decidable.not_or in ND. destruct ND as [N1 N2].
      apply (fstore_good dbl aw base off fs s1 s2 fm fld N1 A B AG FI (FA aw off base s1 s2 AW R A B WD N2)).
  - destruct i as [| | | | | | k' base off p | | dbl base off fs |]; try discriminate H.
    + conj H. apply store_eqb_eq in H3. subst k. rename H4 into R, H2 into A, H1 into B, H0 into C, H into AW.
      getsrc A s1 E1. getsrc B s2 E2. apply is_fsrc_ok in C. destruct C as (fm & fld & E3 & AG & FI). rewrite ?E1, ?E2, ?E3. cbn [option_map src_value].
      cbn [deviates] in ND. apply Decidable.not_or in ND. destruct ND as [N1 N2].
      rewrite (proj2 (Z.eqb_neq _ _) N1).
      apply (fstore_good dbl aw base off fs s1 s2 fm fld N1 A B AG FI (FA aw off base s1 s2 AW R A B WD N2)).
  - apply nop_good, H.
Qed.
End Row.
