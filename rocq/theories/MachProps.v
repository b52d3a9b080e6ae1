(** Theorems C91, C92: a program runs as the privileged architecture prescribes across exceptions, environment calls, trap
    returns, accesses to the CSRs that control traps, and interrupts. *)
From Coq Require Import ZArith List String Bool Lia.
From Verif Require Import Bits FmtSpec FmtModel FmtProofs DecSpec DecManual DecModel DecCheck DecTables IntSpec Memory AccessSpec AccessModel CsrSpec
  StatusSpec StatusModel StatusProofs XipSpec XipModel XipProofs HartSpec HartModel HartProofs HartProofs2 HartProofs3 HartProps
  StepSpec StepModel StepCheck StepProofs StepTables StepEval StepProps MachSpec MachModel MachCheck MachProofs.
Import ListNotations.
Local Open Scope string_scope.
Local Open Scope Z_scope.

(** * C91: execution with traps *)
(** Step(n), from any state without an interrupt on offer and with an empty decode cache, while devices drive the
    interrupt lines in any way ([evs]: what they do during each instruction): as long as the runs the manual allows only
    meet states covered by C73 and C91, the simulator gets through, and what it does is a run the manual allows, one
    instruction after the other with all their traps, interrupted only by interrupts enabled in mie and globally. *)
Theorem machine_run_correct_partial : forall I misa max evs t, In I simulators ->
  let S := im_sim I in let xlen := s_xlen S in let has_c := Z.testbit misa 2 in
  top_ok xlen t -> forallb (forallb line_op) evs = true ->
  m_covered_run xlen has_c max (im_32 I) (im_16 I) (im_broken I) (List.length evs) (abs t) ->
  (exists res, mach_run S misa max evs t no_cache res) /\
  forall res, mach_run S misa max evs t no_cache res ->
    exists t' os, res = Some t' /\ List.length os = List.length evs /\
      m_runs xlen has_c max (ds_manual (im_32 I)) (ds_manual (im_16 I)) os (abs t) (abs t') /\ top_ok xlen t'.
Proof.
  cbv zeta. intros I misa max evs t HI OK LO C. rewrite <- has_c_bit in *.
  assert (CO : m_coherent I misa max (List.length evs) (abs t) no_cache) by (intros a x E; discriminate E).
  split; [exact (mach_exists I misa max HI evs t no_cache OK C CO LO) |].
  intros res. exact (mach_sound I misa max HI evs t no_cache res OK C CO LO).
Qed.
Print Assumptions machine_run_correct_partial.
(** A program that never enables an interrupt in mie runs uninterrupted, whatever the devices do. *)
Lemma quiet_runs xlen has_c limit m32 m16 n : forall os s s', (List.length os <= n)%nat ->
  (forall k s', (k <= n)%nat -> m_runs xlen has_c limit m32 m16 (repeat None k) s s' -> m_mie s' = 0) ->
  m_runs xlen has_c limit m32 m16 os s s' -> os = repeat None (List.length os).
Proof.
  induction n as [| n IH]; intros os s s' L Q R; inversion R as [| o os1 ? s1 s2 ? AC IN R']; subst; try reflexivity; cbn [List.length] in L.
  - lia.
  - assert (M1 : m_mie s1 = 0) by (apply (Q 1%nat); [lia |]; eapply mr_step; [exact AC | reflexivity | apply mr_end]).
    destruct o as [i |]; cbn [interrupted] in IN.
    + destruct IN as (_ & E & _). rewrite M1, Z.bits_0 in E. discriminate E.
    + subst s2. cbn [List.length repeat]. f_equal. apply (IH os1 s1 s'); [lia | | exact R'].
      intros k x K Rk. apply (Q (S k)); [lia |]. cbn [repeat]. eapply mr_step; [exact AC | reflexivity | exact Rk].
Qed.
Theorem machine_uninterrupted_partial : forall I misa max evs t, In I simulators ->
  let S := im_sim I in let xlen := s_xlen S in let has_c := Z.testbit misa 2 in
  let runs := m_runs xlen has_c max (ds_manual (im_32 I)) (ds_manual (im_16 I)) in
  top_ok xlen t -> forallb (forallb line_op) evs = true ->
  m_covered_run xlen has_c max (im_32 I) (im_16 I) (im_broken I) (List.length evs) (abs t) ->
  (forall k s, (k <= List.length evs)%nat -> runs (repeat None k) (abs t) s -> m_mie s = 0) ->
  (exists res, mach_run S misa max evs t no_cache res) /\
  forall res, mach_run S misa max evs t no_cache res ->
    exists t', res = Some t' /\ runs (repeat None (List.length evs)) (abs t) (abs t').
Proof.
  cbv zeta. intros I misa max evs t HI OK LO C Q.
  destruct (machine_run_correct_partial I misa max evs t HI OK LO C) as [A B].
  split; [exact A |]. intros res R. destruct (B res R) as (t' & os & E & L & RU & _). exists t'. split; [exact E |].
  assert (EQ : os = repeat None (List.length os)) by (eapply quiet_runs; [| exact Q | exact RU]; rewrite L; apply le_n).
  rewrite <- L, <- EQ. exact RU.
Qed.
Print Assumptions machine_uninterrupted_partial.
(** The state after reset is one the theorems apply to. *)
Theorem machine_reset_ok : forall xlen u, xlen = 32 \/ xlen = 64 -> hart_ok xlen u ->
  top_ok xlen {| tu := u; tp := hart_init xlen (hpc u); t_mscr := 0; t_sscr := 0 |}.
Proof.
  intros xlen u XL HO. split; [apply init_wf; exact XL |]. split; [reflexivity |]. split; [| reflexivity].
  assert (P : 0 < 2 ^ xlen) by (destruct XL; subst; reflexivity). constructor; cbn [abs m_user m_priv m_status m_mscratch m_sscratch m_m m_s].
  - destruct HO. constructor; assumption.
  - apply user_fs.
  - right. right. reflexivity.
  - vm_compute. discriminate.
  - cbn [t_mscr t_sscr]. lia.
  - split; reflexivity.
Qed.
Print Assumptions machine_reset_ok.

(** jal x0, 0 at 0x1000, in user mode, with the timer interrupt enabled and the handler, mret, at 0x1004. *)
Definition wait_code : list Z := [0x0000006f; 0x30200073].
Definition wait_state : top :=
  {| tu := hart_at 0x1000 [] 0 wait_code;
     tp := {| h_xlen := 64; h_priv := 0; h_status := {| ms_value := 0xa00002000; ms_buf := 0; ms_bufmask := 0 |};
              h_ip := {| ip_value := 0; ip_ext := 0 |}; h_ie := 0x80; h_mideleg := 0; h_medeleg := 0; h_sideleg := 0;
              h_m := {| HartSpec.t_epc := 0x1000; t_cause := 0; t_tvec := 0x1004; HartSpec.t_tval := 0 |};
              h_s := {| HartSpec.t_epc := 0; t_cause := 0; t_tvec := 0; HartSpec.t_tval := 0 |};
              h_pc := 0x1000; h_branch := false; h_avail := false; h_code := code_none; h_taken := 0; h_returns := 0 |};
     t_mscr := 0; t_sscr := 0 |}.
Definition here (a : Z) : Prop := a = 0x1000 \/ a = 0x1004.
Record at_wait (s : machine) : Prop := {
  aw_pc : here (hpc (m_user s)); aw_mem : forall a, hm (m_user s) a = program 0x1000 wait_code a;
  aw_epc : here (HartSpec.t_epc (m_m s)); aw_tvec : t_tvec (m_m s) = 0x1004; aw_mi : m_mideleg s = 0; aw_me : m_medeleg s = 0 }.
Lemma wait_fetch s : at_wait s -> fetched (m_user s) (if hpc (m_user s) =? 0x1000 then 0x0000006f else 0x30200073).
Proof.
  intros A. pose proof (aw_mem _ A) as M. apply fetched_const; destruct (aw_pc _ A) as [P | P]; rewrite P; rewrite ?M; cbn [Z.eqb Pos.eqb];
    first [split; [discriminate | reflexivity] | reflexivity].
Qed.
Lemma wait_dest s q : at_wait s -> trap_dest (m_priv s) (m_mideleg s) (m_medeleg s) q = M_mode.
Proof. intros A. unfold trap_dest. rewrite (aw_mi _ A), (aw_me _ A), Z.bits_0, andb_false_r. destruct (q_int q); reflexivity. Qed.
Lemma wait_enters s q s' : at_wait s -> here (q_epc q) -> enters 64 s q s' -> at_wait s'.
Proof.
  intros A Q E. unfold enters in E. rewrite (wait_dest s q A) in E. destruct E as ((_ & _ & KM) & (_ & _ & _ & MI & ME) & _ & PC & TM & _).
  destruct (TM eq_refl) as (R & _ & _). constructor.
  - right. rewrite PC. unfold mode_regs. cbn [Z.eqb M_mode Pos.eqb]. rewrite (aw_tvec _ A). unfold handler_addr.
    change (0x1004 mod 4 =? 1) with false. rewrite andb_false_r. reflexivity.
  - intros a. rewrite KM. apply (aw_mem _ A).
  - rewrite R. cbn [trapregs_after HartSpec.t_epc]. destruct Q as [-> | ->]; [left | right]; reflexivity.
  - rewrite R. exact (aw_tvec _ A).
  - rewrite MI. exact (aw_mi _ A).
  - rewrite ME. exact (aw_me _ A).
Qed.
Lemma jal_names e : In e (ds_manual s_RiscV64G) -> means e 0x6f -> mnemonic e = "jal".
Proof.
  intros He Me. apply (mnemonics_ok _ _ e He) in Me. assert (N : mnemonics (ds_manual s_RiscV64G) 0x6f = ["jal"]) by (vm_compute; reflexivity).
  rewrite N in Me. destruct Me as [Me | []]. symmetry. exact Me.
Qed.
Lemma mret_names e : In e (ds_manual s_RiscV64G) -> means e 0x30200073 -> mnemonic e = "mret".
Proof.
  intros He Me. apply (mnemonics_ok _ _ e He) in Me. assert (N : mnemonics (ds_manual s_RiscV64G) 0x30200073 = ["mret"]) by (vm_compute; reflexivity).
  rewrite N in Me. destruct Me as [Me | []]. symmetry. exact Me.
Qed.
Lemma named man m w : existsb (String.eqb m) (mnemonics man w) = true -> exists e, In e man /\ means e w /\ mnemonic e = m.
Proof.
  intros H. apply existsb_exists in H. destruct H as (x & Hx & E). apply String.eqb_eq in E. subst x.
  unfold mnemonics in Hx. apply in_map_iff in Hx. destruct Hx as (e & E & F). apply filter_In in F. destruct F as [F C].
  apply conds_ok in C. exists e. auto.
Qed.
Lemma wait_user s out : at_wait s -> steps_to 64 true all64 (ds_manual s_RiscV64G) (ds_manual s_RiscV64C) (m_user s) out ->
  hpc (m_user s) = 0x1000 /\ exists h', out = Done h' /\ hpc h' = 0x1000 /\ forall a, hm h' a = hm (m_user s) a.
Proof.
  intros A ST. pose proof (wait_fetch s A) as F. pose proof (aw_pc _ A) as P.
  assert (LE : hpc (m_user s) <= all64) by (destruct P as [P | P]; rewrite P; vm_compute; discriminate).
  inversion ST as [LT _ | iw e i _ F' He Me Hi X | iw _ F' NM _].
  - destruct (Z.lt_irrefl _ (Z.lt_le_trans _ _ _ LT LE)).
  - pose proof (fetched_unique _ iw _ F' F) as E. clear F' F. subst iw. destruct P as [P | P]; rewrite P in *; cbn [Z.eqb Pos.eqb] in *.
    + split; [reflexivity |]. change (word_of 0x6f) with 0x6f in *. change (long 0x6f) with true in *. rewrite (jal_names e He Me) in Hi.
      assert (Q : semantics 64 "jal" = Some (IJal (Rd o_rd) (Imm o_imm_j))) by (vm_compute; reflexivity).
      rewrite Q in Hi. apply Some_inj in Hi. subst i. cbn [executes opd_value] in X. destruct X as (n & o & _ & (v & V & ->) & T).
      apply (opd_is _ f_JType "j_imm" _ _ 0) in V; [subst v | vm_compute; reflexivity | vm_compute; reflexivity].
      rewrite P in T. unfold transfers in T.
      assert (J : jump_spec true ((0x1000 + 0 mod 2 ^ 64) mod 2 ^ 64) ((0x1000 + size_of 0x6f) mod 2 ^ 64) 0x1000 =
                  {| c_pc := Some 0x1000; c_link := Some 0x1004; c_trap := None |}) by (vm_compute; reflexivity).
      rewrite J in T. cbn [c_trap c_pc c_link] in T. destruct T as (h1 & E & _ & KM & PC & _). exists h1. auto.
    + exfalso. change (word_of 0x30200073) with 0x30200073 in *. change (long 0x30200073) with true in *. rewrite (mret_names e He Me) in Hi.
      assert (Q : semantics 64 "mret" = None) by (vm_compute; reflexivity). rewrite Q in Hi. discriminate Hi.
  - exfalso. pose proof (fetched_unique _ iw _ F' F) as E. clear F' F. subst iw. destruct P as [P | P]; rewrite P in *; cbn [Z.eqb Pos.eqb] in *.
    + destruct (named (ds_manual s_RiscV64G) "jal" 0x6f) as (e & He & Me & _); [vm_compute; reflexivity |]. exact (NM e He Me).
    + destruct (named (ds_manual s_RiscV64G) "mret" 0x30200073) as (e & He & Me & _); [vm_compute; reflexivity |]. exact (NM e He Me).
Qed.
Lemma wait_sys s iw y : at_wait s -> is_sys all64 (ds_manual s_RiscV64G) (ds_manual s_RiscV64C) s iw y -> y = YMret.
Proof.
  intros A (_ & F' & e & He & Me & Hy). pose proof (wait_fetch s A) as F. pose proof (fetched_unique _ iw _ F' F) as E. clear F' F. subst iw.
  destruct (aw_pc _ A) as [P | P]; rewrite P in *; cbn [Z.eqb Pos.eqb] in *.
  - change (word_of 0x6f) with 0x6f in *. change (long 0x6f) with true in *. rewrite (jal_names e He Me) in Hy. vm_compute in Hy. discriminate Hy.
  - change (word_of 0x30200073) with 0x30200073 in *. change (long 0x30200073) with true in *. rewrite (mret_names e He Me) in Hy.
    vm_compute in Hy. apply Some_inj in Hy. symmetry. exact Hy.
Qed.
Lemma wait_step s s1 : at_wait s -> acts 64 true all64 (ds_manual s_RiscV64G) (ds_manual s_RiscV64C) s s1 -> at_wait s1.
Proof.
  intros A [ST (_ & _ & _ & MI & ME) HM _ _ _ _ | q [(r & u & ST & _) | (iw & y & SY & RS)] EN | iw y SY _ D].
  - destruct (wait_user _ _ A ST) as (_ & h' & E & PC & KM). apply (f_equal (fun o => match o with Done h => h | Raise _ h => h end)) in E. cbv beta iota in E. rewrite <- E in *.
    constructor; [left; exact PC | intros a; rewrite KM; apply (aw_mem _ A) | | | |]; rewrite ?HM, ?MI, ?ME; apply A.
  - destruct (wait_user _ _ A ST) as (_ & h' & E & _). discriminate E.
  - rewrite (wait_sys _ _ _ A SY) in RS. destruct RS as [_ ->]. apply (wait_enters s _ s1 A) in EN; [exact EN | exact (aw_pc _ A)].
  - rewrite (wait_sys _ _ _ A SY) in D. destruct D as ((_ & _ & KM) & (_ & _ & _ & MI & ME) & HM & _ & PC & _).
    constructor; [rewrite PC; apply A | intros a; rewrite KM; apply (aw_mem _ A) | | | |]; rewrite ?HM, ?MI, ?ME; apply A.
Qed.
Lemma wait_runs os : forall s s', at_wait s -> m_runs 64 true all64 (ds_manual s_RiscV64G) (ds_manual s_RiscV64C) os s s' -> at_wait s'.
Proof.
  induction os as [| o os IH]; intros s s' A R; inversion R as [| ? ? ? s1 s2 ? AC IN R']; subst; [exact A |].
  apply (IH s2 s'); [| exact R']. pose proof (wait_step _ _ A AC) as A1. destruct o as [i |]; cbn [interrupted] in IN.
  - destruct IN as (_ & _ & _ & EN). apply (wait_enters s1 _ s2 A1) in EN; [exact EN | exact (aw_pc _ A1)].
  - rewrite IN. exact A1.
Qed.
Example machine_run_nonvacuous : forall n,
  top_ok 64 wait_state /\ m_covered_run 64 true all64 s_RiscV64G s_RiscV64C ["c.fld"] n (abs wait_state) /\
  exists t1, boundary wait_state [HLine 7 1] = Some t1 /\ hpc (tu t1) = 0x1004 /\ h_priv (tp t1) = M_mode /\
    HartSpec.t_epc (h_m (tp t1)) = 0x1000 /\ t_cause (h_m (tp t1)) = 2 ^ 63 + 7.
Proof.
  intros n. split; [| split].
  - split; [| split; [reflexivity | split; [| reflexivity]]].
    + unfold hart_wf, wait_state, regs_wf, inw, nothing_staged, XipProofs.ip_wf, irq_only. cbn [tp h_xlen h_priv h_status h_ip h_ie h_mideleg h_m h_s h_avail ms_value ms_buf ms_bufmask].
      repeat split; try lia; try (vm_compute; first [reflexivity | discriminate]); try (intros i T; rewrite Z.bits_0 in T; discriminate T). left. reflexivity.
    + constructor; [apply (hart0_ok 64 [] 1 wait_code); [right |]; reflexivity | reflexivity | left; reflexivity | vm_compute; discriminate | |].
      * split; (split; [discriminate | reflexivity]).
      * split; reflexivity.
  - assert (A0 : at_wait (abs wait_state)) by (constructor; try reflexivity; left; reflexivity). split.
    + intros os s' _ R. pose proof (wait_runs _ _ _ A0 R) as A. pose proof (wait_fetch s' A) as F. split; [left; reflexivity |]. split.
      * intros _ iw F'. right. pose proof (fetched_unique _ iw _ F' F) as E. clear F' F. subst iw.
        destruct (aw_pc _ A) as [P | P]; rewrite P; cbn [Z.eqb Pos.eqb]; (split; [reflexivity |]).
        -- left. exists "jal", (IJal (Rd o_rd) (Imm o_imm_j)). apply regular_ok; try (vm_compute; reflexivity). intros X. exact X.
        -- right. exists YMret. split; [| split; [intros k v E; discriminate E | intros X; exact X]].
           destruct (named (ds_manual s_RiscV64G) "mret" 0x30200073) as (e & He & Me & Ne); [vm_compute; reflexivity |].
           exists e. split; [exact He |]. split; [exact Me |]. rewrite Ne. split; [reflexivity |].
           intros L. apply listedb_ok in L. vm_compute in L. discriminate L.
      * intros q _. rewrite (wait_dest _ q A). unfold mode_regs. cbn [M_mode Z.eqb Pos.eqb]. rewrite (aw_tvec _ A). vm_compute. discriminate.
    + intros os1 os2 s1 s2 _ R1 R2 E iw F. pose proof (wait_runs _ _ _ A0 R1) as A1. pose proof (wait_runs _ _ _ A1 R2) as A2.
      pose proof (wait_fetch s2 A2) as F2. rewrite E in F2. rewrite (fetched_unique _ _ _ F (wait_fetch s1 A1)). exact F2.
  - destruct (boundary wait_state [HLine 7 1]) as [t1 |] eqn:E.
    + exists t1. split; [reflexivity |].
      assert (Q : option_map (fun t => (hpc (tu t), h_priv (tp t), HartSpec.t_epc (h_m (tp t)), t_cause (h_m (tp t)))) (boundary wait_state [HLine 7 1]) = Some (0x1004, 3, 0x1000, 2 ^ 63 + 7)) by (vm_compute; reflexivity).
      rewrite E in Q. cbn [option_map] in Q. apply Some_inj in Q. rewrite !pair_equal_spec in Q. tauto.
    + assert (Q : option_map (fun t => hpc (tu t)) (boundary wait_state [HLine 7 1]) = Some 0x1004) by (vm_compute; reflexivity).
      rewrite E in Q. discriminate Q.
Qed.

(** A timer interrupt is pending in machine mode, with MIE set; csrrs x0, mie, x1 enables it, and it is taken before the next
    instruction. *)
Definition csr_state (x1 word mstatus ip : Z) : top :=
  {| tu := hart_at 0x1000 [x1] 0 [word];
     tp := {| h_xlen := 64; h_priv := 3; h_status := {| ms_value := mstatus; ms_buf := 0; ms_bufmask := 0 |};
              h_ip := {| ip_value := ip; ip_ext := 0 |}; h_ie := 0; h_mideleg := 0; h_medeleg := 0; h_sideleg := 0;
              h_m := {| HartSpec.t_epc := 0; t_cause := 0; t_tvec := 0x2000; HartSpec.t_tval := 0 |};
              h_s := {| HartSpec.t_epc := 0; t_cause := 0; t_tvec := 0; HartSpec.t_tval := 0 |};
              h_pc := 0x1000; h_branch := false; h_avail := false; h_code := code_none; h_taken := 0; h_returns := 0 |};
     t_mscr := 0; t_sscr := 0 |}.
Lemma csr_state_ok x1 word st ip : 0 <= x1 < 2 ^ 64 -> 0 <= word < 2 ^ 32 -> 0 <= st < 2 ^ 64 -> field_of F_MPP st <> 2 ->
  XipProofs.ip_wf {| ip_value := ip; ip_ext := 0 |} -> top_ok 64 (csr_state x1 word st ip).
Proof.
  intros X WR ST MP IP. split; [| split; [reflexivity | split; [| reflexivity]]].
  - unfold hart_wf, csr_state, regs_wf, inw, nothing_staged, irq_only. cbn [tp h_xlen h_priv h_status h_ip h_ie h_mideleg h_m h_s h_avail ms_value ms_buf ms_bufmask HartSpec.t_epc t_cause t_tvec HartSpec.t_tval].
    split; [right; reflexivity |]. split; [lia |]. split; [split; reflexivity |]. split; [exact ST |]. split; [exact IP |]. split; [lia |].
    split; [intros i T; rewrite Z.bits_0 in T; discriminate T |]. split; [lia |]. split; [lia |]. split; [lia |]. discriminate.
  - constructor.
    + pose proof (hart0_ok 64 [x1] 0 [word] (or_intror eq_refl)) as H. unfold csr_state. destruct H as [A B C D E F]; [cbn [forallb]; rewrite andb_true_r; apply andb_true_intro; split; [apply Z.leb_le | apply Z.ltb_lt]; lia |]. constructor; assumption.
    + apply user_fs.
    + right. right. reflexivity.
    + exact MP.
    + cbn. lia.
    + split; reflexivity.
Qed.
Lemma ip_zero : XipProofs.ip_wf {| ip_value := 0; ip_ext := 0 |}.
Proof. exact (proj1 (proj2 (proj2 (proj2 (proj2 (proj1 (proj1 (machine_run_nonvacuous 0)))))))). Qed.
Definition enable_state : top := csr_state 0x80 0x3040a073 0xa00001808 0x80.
Lemma csr_inst t word o v : hpc (tu t) = 0x1000 -> cached_word no_cache (tu t) 0x1000 = word -> run_opcode sim_RV64G 4 all64 t word o = v ->
  sim_decodes sim_RV64G word o -> one_inst sim_RV64G 4 all64 t no_cache v.
Proof.
  intros P C E D. unfold one_inst. cbv zeta. rewrite P. assert (CA : check_address 4 all64 0x1000 = None) by (vm_compute; reflexivity). rewrite CA.
  assert (BE : (2 ^ s_xlen sim_RV64G <=? 0x1000) = false) by (vm_compute; reflexivity). rewrite BE, C. left. exists o. split; [exact D | symmetry; exact E].
Qed.
Example machine_csr_nonvacuous : top_ok 64 enable_state /\ m_covered_run 64 true all64 s_RiscV64G s_RiscV64C ["c.fld"] 1 (abs enable_state) /\
  exists t1 t2, one_inst sim_RV64G 4 all64 enable_state no_cache (Some t1) /\ boundary t1 [] = Some t2 /\ hpc (tu t2) = 0x2000 /\
    HartSpec.t_epc (h_m (tp t2)) = 0x1004 /\ t_cause (h_m (tp t2)) = 2 ^ 63 + 7 /\ h_ie (tp t2) = 0x80.
Proof.
  assert (FE : fetched (m_user (abs enable_state)) 0x3040a073) by (apply fetched_const; [split; [discriminate | reflexivity] | | | |]; reflexivity).
  split; [| split].
  - apply csr_state_ok; try (split; [discriminate | reflexivity]); [vm_compute; discriminate |].
    unfold XipProofs.ip_wf, inw. cbn [ip_value ip_ext]. split; [lia |]. split; [| left; reflexivity]. intros i T. change 0x80 with (2 ^ 7) in T. rewrite Z.pow2_bits_eqb in T by lia. apply Z.eqb_eq in T. subst i. reflexivity.
  - assert (S1 : forall os s', (List.length os < 1)%nat -> m_runs 64 true all64 (ds_manual s_RiscV64G) (ds_manual s_RiscV64C) os (abs enable_state) s' -> s' = abs enable_state).
    { intros os s' L R. destruct os; [| cbn in L; lia]. inversion R. reflexivity. }
    split.
    + intros os s' L R. rewrite (S1 os s' L R). split; [left; reflexivity |]. split.
      * intros _ iw F'. right. rewrite (fetched_unique _ iw _ F' FE). split; [reflexivity |]. right. exists (YCsr KSet rs1). split; [| split].
        -- destruct (named (ds_manual s_RiscV64G) "csrrs" 0x3040a073) as (e & He & Me & Ne); [vm_compute; reflexivity |].
           exists e. split; [exact He |]. split; [exact Me |]. rewrite Ne. split; [reflexivity |]. intros Q. apply listedb_ok in Q. vm_compute in Q. discriminate Q.
        -- intros k v _. exists 0x304, Mie. split; [| reflexivity]. apply (extract_encodes o_csr f_IType "u_imm12" 0x3040a073). vm_compute. reflexivity.
        -- intros (_ & n & c & x & old & EN & NM & _ & _ & D). apply (opd_is _ f_IType "u_imm12" _ _ 0x304) in EN; [| vm_compute; reflexivity | vm_compute; reflexivity].
           subst n. vm_compute in NM. apply Some_inj in NM. subst c. destruct D as [[[D | D] _] | [D _]]; discriminate D.
      * intros q _. replace (trap_dest (m_priv (abs enable_state)) (m_mideleg (abs enable_state)) (m_medeleg (abs enable_state)) q) with M_mode by (unfold trap_dest; change (m_mideleg (abs enable_state)) with 0; change (m_medeleg (abs enable_state)) with 0; rewrite Z.bits_0, andb_false_r; destruct (q_int q); reflexivity).
        vm_compute. discriminate.
    + intros os1 os2 s1 s2 L R1 R2 _ iw F. rewrite app_length in L. rewrite (S1 os1 s1) in R2, F by (assumption || lia). rewrite (S1 os2 s2) by (assumption || lia). exact F.
  - destruct (run_opcode sim_RV64G 4 all64 enable_state 0x3040a073 "csrrs_nr") as [t1 |] eqn:E.
    2:{ assert (Q : option_map (fun t => hpc (tu t)) (run_opcode sim_RV64G 4 all64 enable_state 0x3040a073 "csrrs_nr") = Some 0x1004) by (vm_compute; reflexivity).
        rewrite E in Q. discriminate Q. }
    assert (Q : option_map (fun t => match boundary t [] with Some t2 => (hpc (tu t2), HartSpec.t_epc (h_m (tp t2)), t_cause (h_m (tp t2)), h_ie (tp t2)) | None => (0, 0, 0, 0) end)
      (run_opcode sim_RV64G 4 all64 enable_state 0x3040a073 "csrrs_nr") = Some (0x2000, 0x1004, 2 ^ 63 + 7, 0x80)) by (vm_compute; reflexivity).
    rewrite E in Q. cbn [option_map] in Q. apply Some_inj in Q. destruct (boundary t1 []) as [t2 |] eqn:B; [| discriminate Q]. rewrite !pair_equal_spec in Q.
    exists t1, t2. split; [| split; [exact B | tauto]]. apply (csr_inst _ 0x3040a073 "csrrs_nr"); [reflexivity | vm_compute; reflexivity | exact E |].
    apply first_opcode_ok. vm_compute. reflexivity.
Qed.

(** Return addresses written by software are not aligned: csrrw x0, mepc, x1 with x1 = 0x1001 in machine mode raises no
    exception and leaves 0x1001 in mepc. *)
Definition epc_state : top := csr_state 0x1001 0x34109073 0xa00001800 0.
Theorem epc_misaligned_refuted : exists t1,
  top_ok 64 epc_state /\ is_sys all64 (ds_manual s_RiscV64G) (ds_manual s_RiscV64C) (abs epc_state) 0x34109073 (YCsr KWrite rs1) /\
  (forall q, ~ sys_raises (YCsr KWrite rs1) 0x34109073 (abs epc_state) q) /\
  one_inst sim_RV64G 4 all64 epc_state no_cache (Some t1) /\ HartSpec.t_epc (h_m (tp t1)) = 0x1001 /\
  ~ sys_does 64 true 4 (YCsr KWrite rs1) 0x34109073 (abs epc_state) (abs t1).
Proof.
  assert (CS : forall n, encodes o_csr 0x34109073 n -> n = 0x341).
  { intros n E. apply (opd_is _ f_IType "u_imm12" _ _ 0x341) in E; [exact E | vm_compute; reflexivity | vm_compute; reflexivity]. }
  assert (FE : fetched (m_user (abs epc_state)) 0x34109073) by (apply fetched_const; [split; [discriminate | reflexivity] | | | |]; reflexivity).
  destruct (run_opcode sim_RV64G 4 all64 epc_state 0x34109073 "csrrw_nr") as [t1 |] eqn:E.
  2:{ assert (Q : option_map (fun t => hpc (tu t)) (run_opcode sim_RV64G 4 all64 epc_state 0x34109073 "csrrw_nr") = Some 0x1004) by (vm_compute; reflexivity).
      rewrite E in Q. discriminate Q. }
  assert (V : HartSpec.t_epc (h_m (tp t1)) = 0x1001).
  { assert (Q : option_map (fun t => HartSpec.t_epc (h_m (tp t))) (run_opcode sim_RV64G 4 all64 epc_state 0x34109073 "csrrw_nr") = Some 0x1001) by (vm_compute; reflexivity).
    rewrite E in Q. apply Some_inj in Q. exact Q. }
  exists t1. split; [apply csr_state_ok; try (split; [discriminate | reflexivity]); [vm_compute; discriminate | exact ip_zero] |].
  split.
  { split; [vm_compute; discriminate |]. split; [exact FE |].
    destruct (named (ds_manual s_RiscV64G) "csrrw" 0x34109073) as (e & He & Me & Ne); [vm_compute; reflexivity |].
    exists e. split; [exact He |]. split; [exact Me |]. rewrite Ne. reflexivity. }
  split; [intros q (n & EN & LT & _); rewrite (CS n EN) in LT; vm_compute in LT; discriminate LT |].
  split; [apply (csr_inst _ 0x34109073 "csrrw_nr"); [reflexivity | vm_compute; reflexivity | exact E | apply first_opcode_ok; vm_compute; reflexivity] |].
  split; [exact V |]. intros (n & c & d & x & old & EN & NM & _ & _ & _ & _ & _ & _ & _ & _ & _ & CW). rewrite (CS n EN) in NM. vm_compute in NM. apply Some_inj in NM. subst c.
  destruct CW as (_ & CW & _). specialize (CW ltac:(discriminate)). cbn [csr_value abs m_m legalized] in CW. rewrite V in CW. clear - CW. lia.
Qed.
Print Assumptions epc_misaligned_refuted.
(** MPP takes the reserved value 2: csrrw x0, mstatus, x1 with x1 = 0x1000. *)
Definition mpp_state : top := csr_state 0x1000 0x30009073 0xa00001800 0.
Theorem mpp_reserved_refuted : exists t1,
  top_ok 64 mpp_state /\ is_sys all64 (ds_manual s_RiscV64G) (ds_manual s_RiscV64C) (abs mpp_state) 0x30009073 (YCsr KWrite rs1) /\
  (forall q, ~ sys_raises (YCsr KWrite rs1) 0x30009073 (abs mpp_state) q) /\
  one_inst sim_RV64G 4 all64 mpp_state no_cache (Some t1) /\ m_status (abs t1) F_MPP = 2 /\
  ~ sys_does 64 true 4 (YCsr KWrite rs1) 0x30009073 (abs mpp_state) (abs t1).
Proof.
  assert (CS : forall n, encodes o_csr 0x30009073 n -> n = 0x300).
  { intros n E. apply (opd_is _ f_IType "u_imm12" _ _ 0x300) in E; [exact E | vm_compute; reflexivity | vm_compute; reflexivity]. }
  assert (FE : fetched (m_user (abs mpp_state)) 0x30009073) by (apply fetched_const; [split; [discriminate | reflexivity] | | | |]; reflexivity).
  destruct (run_opcode sim_RV64G 4 all64 mpp_state 0x30009073 "csrrw_nr") as [t1 |] eqn:E.
  2:{ assert (Q : option_map (fun t => hpc (tu t)) (run_opcode sim_RV64G 4 all64 mpp_state 0x30009073 "csrrw_nr") = Some 0x1004) by (vm_compute; reflexivity).
      rewrite E in Q. discriminate Q. }
  assert (V : m_status (abs t1) F_MPP = 2).
  { assert (Q : option_map (fun t => m_status (abs t) F_MPP) (run_opcode sim_RV64G 4 all64 mpp_state 0x30009073 "csrrw_nr") = Some 2) by (vm_compute; reflexivity).
    rewrite E in Q. apply Some_inj in Q. exact Q. }
  exists t1. split; [apply csr_state_ok; try (split; [discriminate | reflexivity]); [vm_compute; discriminate | exact ip_zero] |].
  split.
  { split; [vm_compute; discriminate |]. split; [exact FE |].
    destruct (named (ds_manual s_RiscV64G) "csrrw" 0x30009073) as (e & He & Me & Ne); [vm_compute; reflexivity |].
    exists e. split; [exact He |]. split; [exact Me |]. rewrite Ne. reflexivity. }
  split; [intros q (n & EN & LT & _); rewrite (CS n EN) in LT; vm_compute in LT; discriminate LT |].
  split; [apply (csr_inst _ 0x30009073 "csrrw_nr"); [reflexivity | vm_compute; reflexivity | exact E | apply first_opcode_ok; vm_compute; reflexivity] |].
  split; [exact V |]. intros (n & c & d & x & old & EN & NM & _ & _ & _ & _ & _ & _ & _ & _ & _ & CW). rewrite (CS n EN) in NM. vm_compute in NM. apply Some_inj in NM. subst c.
  destruct CW as (_ & _ & CW). specialize (CW F_MPP). cbn [field_takes] in CW. rewrite V in CW.
  destruct (Z.eqb_spec (field_of F_MPP x) 2) as [Q | Q]; [exact (CW eq_refl) | exact (Q (eq_sym CW))].
Qed.
Print Assumptions mpp_reserved_refuted.

(** * C92: interrupts are precise *)
(** After an instruction that left a well-formed state, with any interrupt on offer enabled: whatever the interrupt lines
    did meanwhile, at most one interrupt is taken.  It is enabled in mie and globally, the handler of the mode it is
    delegated to is entered with the address of the next instruction as return address, and nothing else changes. *)
Theorem interrupt_precise : forall xlen t ops, mid_ok xlen t -> (h_branch (tp t) = true -> h_pc (tp t) = hpc (tu t)) ->
  forallb line_op ops = true ->
  exists t' o, boundary t ops = Some t' /\ interrupted xlen o (abs t) (abs t') /\ top_ok xlen t'.
Proof.
  intros xlen t ops OK BP LO. assert (XL : xlen = 32 \/ xlen = 64) by (destruct OK as (W & X & _); rewrite <- X; apply W).
  destruct XL as [-> | ->].
  - destruct (boundary_ok rv32g 0 0 rv32g_in t ops OK BP LO) as (t' & o & A & B & C & _). exists t', o. auto.
  - destruct (boundary_ok rv64g 0 0 rv64g_in t ops OK BP LO) as (t' & o & A & B & C & _). exists t', o. auto.
Qed.
Print Assumptions interrupt_precise.
(** No interrupt a device raises is missed: if, when the last line changed during an instruction (not the supervisor
    external line), some interrupt is pending, enabled and globally enabled, the one of highest priority is taken. *)
Lemma run_last ops o : forall p p', hart_run p (ops ++ [o])%list = Some p' -> exists p1, hart_run p ops = Some p1 /\ hart_step p1 o = Some p'.
Proof.
  induction ops as [| x ops IH]; intros p p' E; cbn [app hart_run] in *.
  - exists p. split; [reflexivity |]. destruct (hart_step p o) as [q |]; [exact E | discriminate E].
  - destruct (hart_step p x) as [q |]; [exact (IH q p' E) | discriminate E].
Qed.
Theorem interrupt_taken_partial : forall xlen t ops i v p, mid_ok xlen t -> (h_branch (tp t) = true -> h_pc (tp t) = hpc (tu t)) ->
  let evs := (ops ++ [HLine i v])%list in
  forallb line_op evs = true -> i <> 9 -> hart_run (tp t) evs = Some p -> (exists j, eligible (view p) j = true) ->
  exists t' k, boundary t evs = Some t' /\ best_irq (view p) k /\ interrupted xlen (Some k) (abs t) (abs t').
Proof.
  cbv zeta. intros xlen t ops i v p OK BP LO NI E (j & EJ).
  destruct (run_last _ _ _ _ E) as (p1 & E1 & E2). pose proof OK as (W & X & MO & OF).
  assert (LO1 : forallb line_op ops = true /\ line_op (HLine i v) = true).
  { rewrite forallb_app in LO. apply andb_true_iff in LO. destruct LO as [A B]. cbn [forallb] in B. rewrite andb_true_r in B. auto. }
  destruct LO1 as [LO1 LV].
  destruct (line_run ops (tp t) p1 W (mo_priv _ _ MO) OF LO1 E1) as (LK & _ & _ & _).
  assert (W1 : hart_wf p1).
  { apply (hart_run_wf ops (tp t) p1 W); [| exact E1]. rewrite forallb_forall in LO1 |- *. intros o Ho. specialize (LO1 o Ho).
    destruct o; cbn in LO1 |- *; try discriminate LO1; exact LO1. }
  assert (LP : legal_priv (h_priv p1)) by (rewrite (lk_priv _ _ LK); exact (mo_priv _ _ MO)).
  destruct (line_update_offered_partial p1 i v p W1 LP NI) with (j := j) as [AV BI]; [exact LV | exact E2 | exact EJ |].
  assert (NU : Z.testbit (mideleg_r p) (h_code p) && Z.testbit (sideleg_r p) (h_code p) = false).
  { destruct BI as [EL _]. unfold eligible, m_eligible, s_eligible, irq_level_m, irq_level_s in EL. cbn [view iv_deleg iv_udeleg] in EL.
    destruct (Z.testbit (mideleg_r p) (h_code p)); [| reflexivity]. destruct (Z.testbit (sideleg_r p) (h_code p)); [| reflexivity].
    cbn [negb andb] in EL. rewrite !andb_false_r in EL. discriminate EL. }
  assert (XL : xlen = 32 \/ xlen = 64) by (rewrite <- X; apply W).
  assert (B : exists t' o, boundary t (ops ++ [HLine i v])%list = Some t' /\ interrupted xlen o (abs t) (abs t') /\
    match o with Some i => i = h_code p | None => h_avail p = false \/ Z.testbit (mideleg_r p) (h_code p) && Z.testbit (sideleg_r p) (h_code p) = true end).
  { destruct XL as [-> | ->].
    - destruct (boundary_ok rv32g 0 0 rv32g_in t _ OK BP LO) as (t' & o & A & B & _ & C). exists t', o. split; [exact A |]. split; [exact B | exact (C p E)].
    - destruct (boundary_ok rv64g 0 0 rv64g_in t _ OK BP LO) as (t' & o & A & B & _ & C). exists t', o. split; [exact A |]. split; [exact B | exact (C p E)]. }
  destruct B as (t' & o & BD & IN & D). destruct o as [k |].
  - subst k. exists t', (h_code p). auto.
  - destruct D as [D | D]; congruence.
Qed.
Print Assumptions interrupt_taken_partial.
Example interrupt_taken_nonvacuous : exists p, hart_run (tp wait_state) ([HLine 5 1] ++ [HLine 7 1])%list = Some p /\ mid_ok 64 wait_state /\
  eligible (view p) 7 = true.
Proof.
  destruct (hart_run (tp wait_state) ([HLine 5 1] ++ [HLine 7 1])%list) as [p |] eqn:E.
  2:{ assert (Q : option_map h_priv (hart_run (tp wait_state) ([HLine 5 1] ++ [HLine 7 1])%list) = Some 0) by (vm_compute; reflexivity). rewrite E in Q. discriminate Q. }
  exists p. split; [reflexivity |]. split; [apply top_mid; apply (machine_run_nonvacuous 0) |].
  assert (Q : option_map (fun p => eligible (view p) 7) (hart_run (tp wait_state) ([HLine 5 1] ++ [HLine 7 1])%list) = Some true) by (vm_compute; reflexivity).
  rewrite E in Q. apply Some_inj in Q. exact Q.
Qed.
(** The manual's condition that the interrupt taken be pending fails: a line raised and dropped again during an
    instruction still interrupts the program. *)
Theorem interrupt_spurious_refuted : exists t p t', top_ok 64 t /\ hart_run (tp t) [HLine 7 1; HLine 7 0] = Some p /\
  (forall i, iv_pend (view p) i = false) /\ boundary t [HLine 7 1; HLine 7 0] = Some t' /\ hpc (tu t') = 0x1004 /\
  HartSpec.t_epc (h_m (tp t')) = 0x1000 /\ t_cause (h_m (tp t')) = 2 ^ 63 + 7.
Proof.
  exists wait_state. destruct (hart_run (tp wait_state) [HLine 7 1; HLine 7 0]) as [p |] eqn:E.
  2:{ assert (Q : option_map h_priv (hart_run (tp wait_state) [HLine 7 1; HLine 7 0]) = Some 0) by (vm_compute; reflexivity). rewrite E in Q. discriminate Q. }
  destruct (boundary wait_state [HLine 7 1; HLine 7 0]) as [t' |] eqn:B.
  2:{ assert (Q : option_map (fun t => hpc (tu t)) (boundary wait_state [HLine 7 1; HLine 7 0]) = Some 0x1004) by (vm_compute; reflexivity). rewrite B in Q. discriminate Q. }
  exists p, t'. split; [apply (machine_run_nonvacuous 0) |]. split; [reflexivity |]. split.
  - assert (Q : option_map (fun p => mip_as_uint 32 (h_ip p)) (hart_run (tp wait_state) [HLine 7 1; HLine 7 0]) = Some 0) by (vm_compute; reflexivity).
    rewrite E in Q. apply Some_inj in Q. intros i. cbn [view iv_pend]. rewrite Q. apply Z.bits_0.
  - split; [reflexivity |].
    assert (Q : option_map (fun t => (hpc (tu t), HartSpec.t_epc (h_m (tp t)), t_cause (h_m (tp t)))) (boundary wait_state [HLine 7 1; HLine 7 0]) = Some (0x1004, 0x1000, 2 ^ 63 + 7)) by (vm_compute; reflexivity).
    rewrite B in Q. apply Some_inj in Q. rewrite !pair_equal_spec in Q. tauto.
Qed.
Print Assumptions interrupt_spurious_refuted.
