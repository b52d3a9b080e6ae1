(** Property theorems C10-C17, C56-C58. *)
From Coq Require Import ZArith Bool List Lia.
From Verif Require Import Bits CsrSpec StatusSpec StatusModel StatusProofs XipSpec XipModel XipProofs HartSpec HartModel HartProofs HartProofs2 HartProofs3.
Import ListNotations.
Local Open Scope Z_scope.

(** Every admissible history from reset runs without undefined behaviour and stays
    well formed, so the theorems below apply to every reachable state. *)
Theorem hart_histories_defined : forall w pc ops, w = 32 \/ w = 64 -> forallb (hart_op_ok w) ops = true ->
  exists h, hart_run (hart_init w pc) ops = Some h /\ hart_wf h.
Proof.
  intros w pc ops Hw Ok. destruct (run_defined ops (hart_init w pc)) as (h & E); [apply init_wf, Hw|exact Ok|].
  exists h. split; [exact E|]. eapply hart_run_wf; [apply init_wf, Hw|exact Ok|exact E].
Qed.
Print Assumptions hart_histories_defined.

(** A reachable user-mode hart with delegation, both interrupt enables and vectored
    supervisor traps, used in the examples. *)
Definition to_user : list hart_op :=
  [HCsr K_mideleg (CsrWrite 0x222); HCsr K_medeleg (CsrWrite 0x101);
   HCsr K_mtvec (CsrWrite 0x80000100); HCsr K_stvec (CsrWrite 0x80001001);
   HCsr K_mepc (CsrWrite 0x2000); HCsr K_mstatus (CsrWrite 0xaa); HMret 0].
Definition user_hart (w : Z) : hart := match hart_run (hart_init w 0x1000) to_user with Some h => h | None => hart_init w 0 end.
Lemma user_hart_wf w : w = 32 \/ w = 64 -> hart_wf (user_hart w) /\ h_priv (user_hart w) = U_mode /\ sf (user_hart w) F_TSR = 0 /\ h_avail (user_hart w) = false.
Proof.
  intros Hw. split.
  - unfold user_hart. destruct (hart_histories_defined w 0x1000 to_user Hw) as (h & E & W); [destruct Hw; subst; reflexivity|]. rewrite E. exact W.
  - destruct Hw; subst; vm_compute; auto.
Qed.
Definition ecall_u : trapreq := {| q_int := false; q_tval := 0; q_code := 8; q_epc := 0x2010 |}.
Definition timer_m : trapreq := {| q_int := true; q_tval := 0; q_code := 7; q_epc := 0x2020 |}.
Definition timer_s : trapreq := {| q_int := true; q_tval := 0; q_code := 5; q_epc := 0x2030 |}.
(** Gives the computed result of a run as the witness. *)
Ltac wit t := let v := eval vm_compute in t in match v with Some ?x => exists x end.
Ltac vm := vm_compute; repeat split; auto; try discriminate.
Ltac small_req := unfold req_ok; cbn; lia.

(** C10, full statement: for every well-formed hart and request the trap enters
    [trap_dest] with the architected register contents.  Proved except for interrupts
    delegated to user level. *)
Theorem trap_entry_partial : forall h q, hart_wf h -> req_ok q -> not_user_delegated h q ->
  let d := trap_dest (h_priv h) (mideleg_r h) (medeleg_r h) q in
  exists h', trap h q = Some h' /\ h_priv h' = d /\ h_branch h' = true /\ same_rest h h' /\ h_returns h' = h_returns h /\
  (d = M_mode -> h_m h' = trapregs_after (h_xlen h) q (h_m h) /\ h_s h' = h_s h /\
                 forall f, sf h' f = status_after_trap_m (h_priv h) (sf h) f) /\
  (d = S_mode -> h_s h' = trapregs_after (h_xlen h) q (h_s h) /\ h_m h' = h_m h /\
                 forall f, sf h' f = status_after_trap_s (h_priv h) (sf h) f).
Proof. exact trap_entry_main. Qed.
Print Assumptions trap_entry_partial.
Example trap_entry_example : hart_wf (user_hart 32) /\ req_ok timer_s /\ not_user_delegated (user_hart 32) timer_s /\
  (exists h', trap (user_hart 32) timer_s = Some h' /\ h_priv h' = S_mode /\ h_pc h' = 0x80001014 /\
     h_s h' = {| t_epc := 0x2030; t_cause := 0x80000005; t_tvec := 0x80001001; t_tval := 0 |} /\ sf h' F_SPIE = 1 /\ sf h' F_SIE = 0).
Proof.
  split; [apply user_hart_wf; auto|]. split; [small_req|]. split; [intros _ _; reflexivity|].
  wit (trap (user_hart 32) timer_s). vm.
Qed.
Theorem trap_user_delegated_refuted : exists w ops h q h', forallb (hart_op_ok w) ops = true /\
  hart_run (hart_init w 0) ops = Some h /\ req_ok q /\ trap h q = Some h' /\
  h_priv h = U_mode /\ eligible (view h) (q_code q) = false /\ h' = h.
Proof.
  exists 32, [HCsr K_mideleg (CsrWrite 0x100); HCsr K_sideleg (CsrWrite 0x100); HMret 0].
  wit (hart_run (hart_init 32 0) [HCsr K_mideleg (CsrWrite 0x100); HCsr K_sideleg (CsrWrite 0x100); HMret 0]).
  exists {| q_int := true; q_tval := 0; q_code := 8; q_epc := 0 |}.
  match goal with |- exists h', _ /\ hart_run _ _ = Some ?h /\ _ => exists h end.
  split; [reflexivity|]. split; [vm_compute; reflexivity|]. split; [small_req|]. vm.
Qed.
Print Assumptions trap_user_delegated_refuted.

(** C11: exceptions never lower the privilege level. *)
Theorem exception_never_lowers : forall h q h', hart_wf h -> legal_priv (h_priv h) -> req_ok q -> q_int q = false ->
  trap h q = Some h' -> h_priv h <= h_priv h'.
Proof. exact exception_up. Qed.
Print Assumptions exception_never_lowers.
Example exception_example : exists h', hart_wf (user_hart 64) /\ legal_priv (h_priv (user_hart 64)) /\ req_ok ecall_u /\
  trap (user_hart 64) ecall_u = Some h' /\ h_priv h' = S_mode.
Proof.
  wit (trap (user_hart 64) ecall_u). split; [apply user_hart_wf; auto|]. split; [left; vm_compute; reflexivity|]. split; [small_req|]. vm.
Qed.

(** C11/C16 for interrupts taken directly after a check: the one taken is the best
    eligible one, privilege does not drop, and the handler registers describe it. *)
Theorem take_after_check_partial : forall h epc, hart_wf h -> legal_priv (h_priv h) -> h_avail h = false -> 0 <= epc < 2 ^ 64 ->
  exists h', hart_run h [HCheck; HTake epc] = Some h' /\
  ((exists i, best_irq (view h) i /\
      h_taken h' = h_taken h + 1 /\ h_priv h <= h_priv h' /\
      regs_of (h_priv h') h' = trapregs_after (h_xlen h) {| q_int := true; q_tval := 0; q_code := i; q_epc := epc |} (regs_of (h_priv h') h)) \/
   ((forall i, eligible (view h) i = false) /\ h' = h)).
Proof. exact take_after_check_main. Qed.
Print Assumptions take_after_check_partial.
Example take_after_check_example : exists h h', hart_run (user_hart 64) [HLine 5 1] = Some h /\ h_avail h = false /\
  hart_run h [HCsr K_mie (CsrWrite 0x20); HTake 0x2044] = Some h' /\ h_priv h' = S_mode /\ t_cause (h_s h') = 0x8000000000000005.
Proof.
  wit (hart_run (user_hart 64) [HLine 5 1]).
  wit (hart_run (user_hart 64) [HLine 5 1; HCsr K_mie (CsrWrite 0x20); HTake 0x2044]). vm.
Qed.

(** Refuted in general: an offer made in user mode survives an exception into machine
    mode and is then taken, dropping from M to S. *)
Theorem take_lowers_privilege_refuted : exists w ops h h' epc, forallb (hart_op_ok w) ops = true /\
  hart_run (hart_init w 0) ops = Some h /\ h_priv h = M_mode /\ (forall i, eligible (view h) i = false) /\
  hart_step h (HTake epc) = Some h' /\ h_priv h' = S_mode.
Proof.
  exists 64, (to_user ++ [HCsr K_mie (CsrWrite 0x20); HLine 5 1; HException 0 2 0x2000]).
  wit (hart_run (hart_init 64 0) (to_user ++ [HCsr K_mie (CsrWrite 0x20); HLine 5 1; HException 0 2 0x2000])). wit (hart_run (hart_init 64 0) ((to_user ++ [HCsr K_mie (CsrWrite 0x20); HLine 5 1; HException 0 2 0x2000]) ++ [HTake 0])). exists 0.
  split; [reflexivity|]. split; [vm_compute; reflexivity|]. split; [reflexivity|]. split; [|vm].
  intros i. match goal with |- eligible (view ?h) _ = _ => destruct (check_main (set_offer h false 0)) as [C _]; [vm_compute; auto|reflexivity|]; destruct (eligible (view h) i) eqn:E; [exfalso|reflexivity] end.
  match type of C with ?a = true <-> _ => assert (a = true) as A end; [apply C; exists i; exact E|]. vm_compute in A. discriminate.
Qed.
Print Assumptions take_lowers_privilege_refuted.
(** Same witness shape for C16: the interrupt taken is no longer pending. *)
Theorem take_not_pending_refuted : exists w ops h h' epc, forallb (hart_op_ok w) ops = true /\
  hart_run (hart_init w 0) ops = Some h /\ iv_pend (view h) 7 = false /\
  hart_step h (HTake epc) = Some h' /\ t_cause (h_m h') = 2 ^ 63 + 7 /\ h_taken h' = h_taken h + 1.
Proof.
  exists 64, (to_user ++ [HCsr K_mie (CsrWrite 0x80); HLine 7 1; HLine 7 0]).
  wit (hart_run (hart_init 64 0) (to_user ++ [HCsr K_mie (CsrWrite 0x80); HLine 7 1; HLine 7 0])). wit (hart_run (hart_init 64 0) ((to_user ++ [HCsr K_mie (CsrWrite 0x80); HLine 7 1; HLine 7 0]) ++ [HTake 0])). exists 0. vm.
Qed.
Print Assumptions take_not_pending_refuted.

(** C12, full statement: pc = handler_addr for every trap.  Proved for interrupts, and
    for exceptions when the handler register is not in vectored mode. *)
Theorem trap_pc_partial : forall h q, hart_wf h -> req_ok q -> not_user_delegated h q ->
  let d := trap_dest (h_priv h) (mideleg_r h) (medeleg_r h) q in
  (q_int q = true \/ t_tvec (regs_of d h) mod 4 <> 1) ->
  exists h', trap h q = Some h' /\ h_pc h' = handler_addr (h_xlen h) (t_tvec (regs_of d h)) q.
Proof. exact trap_pc_main. Qed.
Print Assumptions trap_pc_partial.
Example trap_pc_example : exists h', trap (user_hart 64) timer_s = Some h' /\ h_pc h' = 0x80001014.
Proof.
  wit (trap (user_hart 64) timer_s). vm.
Qed.
Theorem exception_vectored_refuted : exists w ops h q h', forallb (hart_op_ok w) ops = true /\
  hart_run (hart_init w 0) ops = Some h /\ req_ok q /\ q_int q = false /\ trap h q = Some h' /\ h_priv h' = M_mode /\
  h_pc h' <> handler_addr w (t_tvec (h_m h)) q.
Proof.
  exists 64, [HCsr K_mtvec (CsrWrite 0x80000001)]. wit (hart_run (hart_init 64 0) [HCsr K_mtvec (CsrWrite 0x80000001)]).
  exists {| q_int := false; q_tval := 0; q_code := 2; q_epc := 0x1000 |}.
  wit (hart_run (hart_init 64 0) [HCsr K_mtvec (CsrWrite 0x80000001); HException 0 2 0x1000]).
  split; [reflexivity|]. split; [vm_compute; reflexivity|]. split; [small_req|]. vm.
Qed.
Print Assumptions exception_vectored_refuted.

(** C13: a return undoes the trap, for properly nested handlers of any shape and depth.
    Nothing about the interrupted context changes, except the xPP/xPIE scratch fields
    and trap registers of the modes that handled traps. *)
Theorem nested_traps_restore : forall n h, hart_wf h -> legal_priv (h_priv h) -> sf h F_TSR = 0 ->
  nest_ok (mideleg_r h) (medeleg_r h) (sideleg_r h) (h_priv h) n ->
  exists h', run_nest n h = Some h' /\ same_ctx h h' /\
    match n with Nest q _ => h_pc h' = q_epc q mod 2 ^ h_xlen h end.
Proof. exact nest_main. Qed.
Print Assumptions nested_traps_restore.
Example nested_example : nest_ok (mideleg_r (user_hart 64)) (medeleg_r (user_hart 64)) (sideleg_r (user_hart 64)) (h_priv (user_hart 64))
  (Nest timer_s [Nest ecall_u []; Nest timer_m [Nest {| q_int := false; q_tval := 1; q_code := 5; q_epc := 0x44 |} []]]).
Proof. vm_compute. repeat split; try discriminate; try reflexivity. Qed.
Theorem mret_after_trap : forall h q, hart_wf h -> req_ok q -> not_user_delegated h q ->
  trap_dest (h_priv h) (mideleg_r h) (medeleg_r h) q = M_mode ->
  exists h1 h2, trap h q = Some h1 /\ mret h1 (h_pc h1) = Some h2 /\
    h_priv h2 = h_priv h /\ h_pc h2 = q_epc q mod 2 ^ h_xlen h /\ h_s h2 = h_s h /\
    (forall f, f <> F_MPP -> f <> F_MPIE -> sf h2 f = sf h f).
Proof. exact mret_after_trap_main. Qed.
Print Assumptions mret_after_trap.
Theorem sret_after_trap : forall h q, hart_wf h -> req_ok q -> not_user_delegated h q -> (h_priv h = U_mode \/ h_priv h = S_mode) ->
  sf h F_TSR = 0 ->
  trap_dest (h_priv h) (mideleg_r h) (medeleg_r h) q = S_mode ->
  exists h1 h2, trap h q = Some h1 /\ sret h1 (h_pc h1) = Some h2 /\
    h_priv h2 = h_priv h /\ h_pc h2 = q_epc q mod 2 ^ h_xlen h /\ h_m h2 = h_m h /\
    (forall f, f <> F_SPP -> f <> F_SPIE -> sf h2 f = sf h f).
Proof. exact sret_after_trap_main. Qed.
Print Assumptions sret_after_trap.
Example return_example : trap_dest (h_priv (user_hart 32)) (mideleg_r (user_hart 32)) (medeleg_r (user_hart 32)) timer_m = M_mode /\
  trap_dest (h_priv (user_hart 32)) (mideleg_r (user_hart 32)) (medeleg_r (user_hart 32)) ecall_u = S_mode /\
  sf (user_hart 32) F_TSR = 0 /\ req_ok timer_m /\ req_ok ecall_u.
Proof. repeat split; try (vm_compute; reflexivity); cbn; lia. Qed.

(** C14: xret outside the mode that owns it is an illegal instruction... *)
Theorem mret_needs_m : forall h addr, h_priv h <> M_mode -> mret h addr = trap h (illegal addr).
Proof. intros h addr N. unfold mret. apply Z.eqb_neq in N. unfold M_mode in N. rewrite N. reflexivity. Qed.
Print Assumptions mret_needs_m.
Theorem sret_needs_s : forall h addr, h_xlen h = 32 \/ h_xlen h = 64 -> h_priv h = U_mode \/ (h_priv h = S_mode /\ sf h F_TSR = 1) ->
  sret h addr = trap h (illegal addr).
Proof.
  intros h addr Hw H. unfold sret. replace (sret_illegal h) with true; [reflexivity|].
  unfold sret_illegal. rewrite ms_get_field. fold (sf h F_TSR).
  destruct H as [-> | [-> ->]]; destruct Hw as [-> | ->]; reflexivity.
Qed.
Print Assumptions sret_needs_s.
(** ... and inside it, returns. *)
Theorem mret_effect : forall h addr, hart_wf h -> h_priv h = M_mode ->
  exists h', mret h addr = Some h' /\ h_priv h' = sf h F_MPP /\ h_pc h' = t_epc (h_m h) /\ h_branch h' = true /\
    (forall f, sf h' f = status_after_mret (sf h) f) /\ same_rest h h' /\ h_m h' = h_m h /\ h_s h' = h_s h /\
    h_returns h' = h_returns h + 1.
Proof. exact mret_effect_main. Qed.
Print Assumptions mret_effect.
(** Full statement: sret is also permitted in M mode whatever TSR. Proved: S mode with
    TSR=0, and RV64 M mode with TSR=0. *)
Theorem sret_effect_partial : forall h addr, hart_wf h -> sf h F_TSR = 0 -> h_priv h = S_mode \/ (h_priv h = M_mode /\ h_xlen h = 64) ->
  exists h', sret h addr = Some h' /\ h_priv h' = sf h F_SPP /\ h_pc h' = t_epc (h_s h) /\ h_branch h' = true /\
    (forall f, sf h' f = status_after_sret (sf h) f) /\ same_rest h h' /\ h_m h' = h_m h /\ h_s h' = h_s h /\
    h_returns h' = h_returns h + 1.
Proof.
  intros h addr W T H. apply sret_effect_main; [exact W|]. unfold sret_illegal. rewrite ms_get_field. fold (sf h F_TSR). rewrite T.
  destruct H as [-> | [-> ->]]; [destruct W as ([-> | ->] & _)|]; reflexivity.
Qed.
Print Assumptions sret_effect_partial.
Example xret_example : h_priv (hart_init 32 0) = M_mode /\ h_priv (user_hart 32) <> M_mode /\
  (exists h', trap (user_hart 64) timer_s = Some h' /\ h_priv h' = S_mode /\ sf h' F_TSR = 0).
Proof.
  split; [reflexivity|]. split; [intros E; vm_compute in E; discriminate|]. wit (trap (user_hart 64) timer_s). vm.
Qed.
Theorem sret_in_m_refuted : exists h32 ops h64 h1 h2,
  hart_run (hart_init 32 0) [] = Some h32 /\ h_priv h32 = M_mode /\ sret h32 0x40 = Some h1 /\ t_cause (h_m h1) = 2 /\ h_returns h1 = 0 /\
  forallb (hart_op_ok 64) ops = true /\ hart_run (hart_init 64 0) ops = Some h64 /\ h_priv h64 = M_mode /\ sret h64 0x40 = Some h2 /\ t_cause (h_m h2) = 2 /\ h_returns h2 = 0.
Proof.
  wit (hart_run (hart_init 32 0) []). exists [HCsr K_mstatus (CsrWrite 0x400000)]. wit (hart_run (hart_init 64 0) [HCsr K_mstatus (CsrWrite 0x400000)]).
  wit (hart_run (hart_init 32 0) [HSret 0x40]). wit (hart_run (hart_init 64 0) [HCsr K_mstatus (CsrWrite 0x400000); HSret 0x40]). vm.
Qed.
Print Assumptions sret_in_m_refuted.

(** C15: what a check offers. *)
Theorem check_offers_best : forall h, legal_priv (h_priv h) -> h_avail h = false ->
  (h_avail (check_for_interrupt h) = true <-> exists i, eligible (view h) i = true) /\
  (h_avail (check_for_interrupt h) = true -> best_irq (view h) (h_code (check_for_interrupt h))).
Proof. exact check_main. Qed.
Print Assumptions check_offers_best.
Theorem check_upgrades_offer : forall h i, legal_priv (h_priv h) -> eligible (view h) i = true ->
  h_avail (check_for_interrupt h) = true /\ best_irq (view h) (h_code (check_for_interrupt h)).
Proof. exact check_overwrites. Qed.
Print Assumptions check_upgrades_offer.
Theorem check_changes_only_offer : forall h, set_offer (check_for_interrupt h) (h_avail h) (h_code h) = h.
Proof. exact check_frame. Qed.
Print Assumptions check_changes_only_offer.
Definition three_pending : hart :=
  match hart_run (user_hart 64) [HLine 5 1; HLine 9 1; HLine 3 1; HCsr K_mie (CsrWrite 0x228)] with Some h => h | None => user_hart 64 end.
Example check_example : legal_priv (h_priv three_pending) /\ eligible (view three_pending) 5 = true /\
  eligible (view three_pending) 9 = true /\ eligible (view three_pending) 3 = true /\
  h_avail three_pending = true /\ h_code three_pending = 3.
Proof. vm_compute. auto 10. Qed.

(** C17: the reported handler depth, over every history from reset, is the number of
    interrupts taken minus the number of successful returns (as a 32-bit int). *)
Theorem depth_counts : forall w pc ops h', hart_run (hart_init w pc) ops = Some h' ->
  handler_depth h' = sgn 32 (wrap 32 (count_run takes (hart_init w pc) ops - count_run returns (hart_init w pc) ops)).
Proof. exact depth_main. Qed.
Print Assumptions depth_counts.
Example depth_example : exists h', hart_run (hart_init 64 0)
   (to_user ++ [HCsr K_mie (CsrWrite 0xa0); HLine 5 1; HTake 0x2000; HLine 7 1; HTake 0x80001014]) = Some h' /\ handler_depth h' = 1 /\ h_priv h' = M_mode.
Proof.
  wit (hart_run (hart_init 64 0) (to_user ++ [HCsr K_mie (CsrWrite 0xa0); HLine 5 1; HTake 0x2000; HLine 7 1; HTake 0x80001014])). vm.
Qed.
(** C57 refuted: no interrupt was ever taken, an exception was handled, depth is -1. *)
Theorem depth_zero_when_idle_refuted : exists w ops h', forallb (hart_op_ok w) ops = true /\
  hart_run (hart_init w 0) ops = Some h' /\ count_run takes (hart_init w 0) ops = 0 /\ handler_depth h' = -1.
Proof.
  exists 64, [HException 0 2 0x1000; HMret 0x1010]. wit (hart_run (hart_init 64 0) [HException 0 2 0x1000; HMret 0x1010]). vm.
Qed.
Print Assumptions depth_zero_when_idle_refuted.
(** What does hold: every take is matched by one later return iff the depth is back. *)
Theorem depth_balanced_partial : forall w pc ops h', hart_run (hart_init w pc) ops = Some h' ->
  count_run returns (hart_init w pc) ops = count_run takes (hart_init w pc) ops -> handler_depth h' = 0.
Proof. intros w pc ops h' E B. rewrite (depth_main _ _ _ _ E), B, Z.sub_diag. reflexivity. Qed.
Print Assumptions depth_balanced_partial.
Example depth_balanced_example : exists h', let ops := to_user ++ [HCsr K_mie (CsrWrite 0x20); HLine 5 1; HTake 0x2000] in
  hart_run (hart_init 64 0) ops = Some h' /\ count_run returns (hart_init 64 0) ops = 1 /\ count_run takes (hart_init 64 0) ops = 1.
Proof.
  wit (hart_run (hart_init 64 0) (to_user ++ [HCsr K_mie (CsrWrite 0x20); HLine 5 1; HTake 0x2000])). vm.
Qed.

(** C56: no interrupt is lost: once an update makes an interrupt eligible, it is offered.
    Proved for device lines other than the supervisor external bit, for writes of the
    enable registers, and for an explicit check. *)
Theorem line_update_offered_partial : forall h i v h', hart_wf h -> legal_priv (h_priv h) -> i <> 9 ->
  hart_op_ok (h_xlen h) (HLine i v) = true -> hart_step h (HLine i v) = Some h' ->
  forall j, eligible (view h') j = true -> h_avail h' = true /\ best_irq (view h') (h_code h').
Proof. exact line_offered. Qed.
Print Assumptions line_update_offered_partial.
Theorem enable_write_offered_partial : forall h k o h', legal_priv (h_priv h) -> k = K_mie \/ k = K_sie ->
  hart_step h (HCsr k o) = Some h' ->
  forall j, eligible (view h') j = true -> h_avail h' = true /\ best_irq (view h') (h_code h').
Proof. exact enable_offered. Qed.
Print Assumptions enable_write_offered_partial.
Theorem check_offered_partial : forall h, legal_priv (h_priv h) ->
  forall j, eligible (view (check_for_interrupt h)) j = true ->
  h_avail (check_for_interrupt h) = true /\ best_irq (view (check_for_interrupt h)) (h_code (check_for_interrupt h)).
Proof. exact check_offered. Qed.
Print Assumptions check_offered_partial.
Example offered_example : exists h', hart_step (user_hart 64) (HLine 7 1) = Some h' /\ h_avail h' = false /\
  exists h2, hart_step h' (HCsr K_mie (CsrWrite 0x80)) = Some h2 /\ eligible (view h2) 7 = true /\ h_avail h2 = true.
Proof.
  wit (hart_run (user_hart 64) [HLine 7 1]). split; [vm_compute; reflexivity|]. split; [reflexivity|]. wit (hart_run (user_hart 64) [HLine 7 1; HCsr K_mie (CsrWrite 0x80)]). vm.
Qed.

Definition lost_at (w : Z) (ops : list hart_op) : Prop :=
  forallb (hart_op_ok w) ops = true /\ exists h i, hart_run (hart_init w 0) ops = Some h /\
  eligible (view h) i = true /\ h_avail h = false.
(** The external supervisor line is not checked at all. *)
Theorem ext_line_lost_refuted : lost_at 64 (to_user ++ [HCsr K_mie (CsrWrite 0x200); HExtLine 1]).
Proof.
  split; [reflexivity|]. wit (hart_run (hart_init 64 0) (to_user ++ [HCsr K_mie (CsrWrite 0x200); HExtLine 1])). exists 9. vm.
Qed.
Print Assumptions ext_line_lost_refuted.
(** mret to user mode with all four enable bits clear does not check, although machine
    interrupts are then enabled. *)
Theorem mret_lost_refuted : lost_at 64 [HCsr K_mie (CsrWrite 0x80); HLine 7 1; HMret 0].
Proof.
  split; [reflexivity|]. wit (hart_run (hart_init 64 0) [HCsr K_mie (CsrWrite 0x80); HLine 7 1; HMret 0]). exists 7. vm.
Qed.
Print Assumptions mret_lost_refuted.
(** Taking a supervisor interrupt discards the offer of a machine interrupt made by the
    status update inside the same trap; it stays unoffered until the next check. *)
Theorem take_discards_offer_refuted : lost_at 64 (to_user ++ [HCsr K_mstatus (CsrWrite 0xa2); HMret 0; HCsr K_mie (CsrWrite 0xa0); HLine 5 1; HPriv 3; HLine 7 1; HPriv 0; HTake 0x2000]).
Proof.
  split; [reflexivity|]. wit (hart_run (hart_init 64 0) (to_user ++ [HCsr K_mstatus (CsrWrite 0xa2); HMret 0; HCsr K_mie (CsrWrite 0xa0); HLine 5 1; HPriv 3; HLine 7 1; HPriv 0; HTake 0x2000])). exists 7. vm.
Qed.
Print Assumptions take_discards_offer_refuted.

(** C58: the hart only ever runs in U, S or M mode.  False: MPP accepts the reserved
    value 2 and mret then enters that mode. *)
Theorem reserved_mode_refuted : exists w ops h, forallb (hart_op_ok w) ops = true /\ hart_run (hart_init w 0) ops = Some h /\ h_priv h = 2.
Proof.
  exists 64, [HCsr K_mstatus (CsrWrite 0x1000); HMret 0]. wit (hart_run (hart_init 64 0) [HCsr K_mstatus (CsrWrite 0x1000); HMret 0]). vm.
Qed.
Print Assumptions reserved_mode_refuted.
(** Proved part: histories that never put 2 in MPP stay in U, S or M. *)
Theorem legal_mode_partial : forall h o h', hart_wf h -> legal_priv (h_priv h) -> sf h F_MPP <> 2 ->
  hart_op_ok (h_xlen h) o = true -> (forall p, o = HPriv p -> p <> 2) -> hart_step h o = Some h' -> legal_priv (h_priv h').
Proof. exact legal_mode_main. Qed.
Print Assumptions legal_mode_partial.
