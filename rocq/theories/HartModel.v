(** Model of trap entry, trap return and interrupt selection:
    /repo/riscv/riscv_state.cc (Trap, CheckForInterrupt, TakeAvailableInterrupt,
    PickInterrupt) and /repo/riscv/riscv_priv_instructions.cc (sret, mret). *)
From Coq Require Import ZArith Bool List.
From Verif Require Import Bits CsrSpec StatusSpec StatusModel XipSpec XipModel HartSpec.
Import ListNotations.
Local Open Scope Z_scope.

(** riscv_state.h:440-472: the members used by the functions below.  CSR objects are
    their stored value; mepc, mcause, mtvec, mtval and the s* versions are
    RiscVSimpleCsr<T> with all-ones masks (riscv_state.cc:176-231, 377-394).
    h_pc/h_branch: the pc register and branch_.  Left out: data buffers in flight
    (riscv_state.cc:780-784 drains them before the pc is written, and the pc write
    below comes last), user callbacks on_trap_ (a handled trap returns with the state
    as the callback left it), and the minstret correction (CounterModel.v). *)
Record hart := {
  h_xlen : Z; h_priv : Z; h_status : mstatus; h_ip : mip_t; h_ie : Z;
  h_mideleg : Z; h_medeleg : Z; h_sideleg : Z;
  h_m : trapregs; h_s : trapregs;
  h_pc : Z; h_branch : bool;
  h_avail : bool; h_code : Z;
  h_taken : Z; h_returns : Z }.

(** riscv_state.cc:70-73, 96-99. *)
Definition medeleg_mask : Z := 0xb3ff.
(** riscv_state.cc:70-73, 96-99. *)
Definition mideleg_mask : Z := 0xbbb.

(** AsUint32/AsUint64 of the delegation registers (riscv_csr.h:443-448). *)
Definition mideleg_r (h : hart) : Z := Z.land (h_mideleg h) mideleg_mask.
(** riscv_csr.h:443-448. *)
Definition sideleg_r (h : hart) : Z := Z.land (h_sideleg h) mideleg_mask.
(** riscv_csr.h:443-448. *)
Definition medeleg_r (h : hart) : Z := Z.land (h_medeleg h) medeleg_mask.

(** riscv_state.h: the value of InterruptCode::kNone. *)
Definition code_none : Z := 2 ^ 64 - 1.

(** riscv_state.cc:862-885 PickInterrupt. *)
Definition pick_interrupt (ints : Z) : Z :=
  let bit i := negb (Z.land ints (Z.shiftl 1 i) =? 0) in
  if bit 11 then 11 else if bit 3 then 3 else if bit 7 then 7
  else if bit 9 then 9 else if bit 1 then 1 else if bit 5 then 5
  else if bit 8 then 8 else if bit 0 then 0 else if bit 4 then 4 else code_none.

(** riscv_state.cc:805-846 CheckForInterrupt: the interrupt that is offered, if any. *)
Definition select_interrupt (h : hart) : option Z :=
  let interrupts := Z.land (mip_as_uint 32 (h_ip h)) (mie_as_uint 32 (h_ie h)) in
  if interrupts =? 0 then None else
  let m_interrupts := Z.land interrupts (wnot 32 (mideleg_r h)) in
  let interrupts := Z.land interrupts (mideleg_r h) in
  let s_interrupts := Z.land interrupts (wnot 32 (sideleg_r h)) in
  let mie := negb (h_priv h =? 3) || negb (ms_get F_MIE (h_status h) =? 0) in
  let sie := ((h_priv h <? 1) || negb (ms_get F_SIE (h_status h) =? 0)) && negb (h_priv h =? 3) in
  let uie := negb (ms_get F_UIE (h_status h) =? 0) && (h_priv h =? 0) in
  if negb (mie || sie || uie) then None
  else if mie && negb (m_interrupts =? 0) then Some (pick_interrupt m_interrupts)
  else if sie && negb (s_interrupts =? 0) then Some (pick_interrupt s_interrupts)
  else None.

(** Model only: record update (is_interrupt_available_, available_interrupt_code_; riscv_state.cc:805-858). *)
Definition set_offer (h : hart) (a : bool) (c : Z) : hart :=
  {| h_xlen := h_xlen h; h_priv := h_priv h; h_status := h_status h; h_ip := h_ip h; h_ie := h_ie h;
     h_mideleg := h_mideleg h; h_medeleg := h_medeleg h; h_sideleg := h_sideleg h;
     h_m := h_m h; h_s := h_s h; h_pc := h_pc h; h_branch := h_branch h;
     h_avail := a; h_code := c; h_taken := h_taken h; h_returns := h_returns h |}.

(** riscv_state.cc:844-845: writes available_interrupt_code_/is_interrupt_available_
    only when something is offered. *)
Definition check_for_interrupt (h : hart) : hart :=
  match select_interrupt h with Some c => set_offer h true c | None => h end.
(** CheckForInterrupt called under a condition by a CSR setter. *)
Definition check_if (b : bool) (h : hart) : hart := if b then check_for_interrupt h else h.

(** Replacing the status register and notifying (riscv_xstatus.cc:105-111). *)
Definition put_status (h : hart) (sc : mstatus * bool) : hart :=
  check_if (snd sc)
  {| h_xlen := h_xlen h; h_priv := h_priv h; h_status := fst sc; h_ip := h_ip h; h_ie := h_ie h;
     h_mideleg := h_mideleg h; h_medeleg := h_medeleg h; h_sideleg := h_sideleg h;
     h_m := h_m h; h_s := h_s h; h_pc := h_pc h; h_branch := h_branch h;
     h_avail := h_avail h; h_code := h_code h; h_taken := h_taken h; h_returns := h_returns h |}.
(** riscv_xip_xie.cc:31-36. *)
Definition put_ip (h : hart) (ic : mip_t * bool) : hart :=
  check_if (snd ic)
  {| h_xlen := h_xlen h; h_priv := h_priv h; h_status := h_status h; h_ip := fst ic; h_ie := h_ie h;
     h_mideleg := h_mideleg h; h_medeleg := h_medeleg h; h_sideleg := h_sideleg h;
     h_m := h_m h; h_s := h_s h; h_pc := h_pc h; h_branch := h_branch h;
     h_avail := h_avail h; h_code := h_code h; h_taken := h_taken h; h_returns := h_returns h |}.
(** riscv_xip_xie.cc:69-74. *)
Definition put_ie (h : hart) (ec : Z * bool) : hart :=
  check_if (snd ec)
  {| h_xlen := h_xlen h; h_priv := h_priv h; h_status := h_status h; h_ip := h_ip h; h_ie := fst ec;
     h_mideleg := h_mideleg h; h_medeleg := h_medeleg h; h_sideleg := h_sideleg h;
     h_m := h_m h; h_s := h_s h; h_pc := h_pc h; h_branch := h_branch h;
     h_avail := h_avail h; h_code := h_code h; h_taken := h_taken h; h_returns := h_returns h |}.

(** Model only: record update of the delegation CSRs (riscv_state.cc:128-231). *)
Definition set_deleg (h : hart) (mi me si : Z) : hart :=
  {| h_xlen := h_xlen h; h_priv := h_priv h; h_status := h_status h; h_ip := h_ip h; h_ie := h_ie h;
     h_mideleg := mi; h_medeleg := me; h_sideleg := si;
     h_m := h_m h; h_s := h_s h; h_pc := h_pc h; h_branch := h_branch h;
     h_avail := h_avail h; h_code := h_code h; h_taken := h_taken h; h_returns := h_returns h |}.
(** Model only: record update of xepc, xcause, xtvec, xtval. *)
Definition set_trapregs (h : hart) (m s : trapregs) : hart :=
  {| h_xlen := h_xlen h; h_priv := h_priv h; h_status := h_status h; h_ip := h_ip h; h_ie := h_ie h;
     h_mideleg := h_mideleg h; h_medeleg := h_medeleg h; h_sideleg := h_sideleg h;
     h_m := m; h_s := s; h_pc := h_pc h; h_branch := h_branch h;
     h_avail := h_avail h; h_code := h_code h; h_taken := h_taken h; h_returns := h_returns h |}.
(** Model only: record update of mstatus. *)
Definition set_stage (h : hart) (st : mstatus) : hart :=
  {| h_xlen := h_xlen h; h_priv := h_priv h; h_status := st; h_ip := h_ip h; h_ie := h_ie h;
     h_mideleg := h_mideleg h; h_medeleg := h_medeleg h; h_sideleg := h_sideleg h;
     h_m := h_m h; h_s := h_s h; h_pc := h_pc h; h_branch := h_branch h;
     h_avail := h_avail h; h_code := h_code h; h_taken := h_taken h; h_returns := h_returns h |}.
(** riscv_state.cc:665-799: the pc write and set_branch(true) at the end of Trap. *)
Definition set_pc (h : hart) (pc : Z) : hart :=
  {| h_xlen := h_xlen h; h_priv := h_priv h; h_status := h_status h; h_ip := h_ip h; h_ie := h_ie h;
     h_mideleg := h_mideleg h; h_medeleg := h_medeleg h; h_sideleg := h_sideleg h;
     h_m := h_m h; h_s := h_s h; h_pc := wrap (h_xlen h) pc; h_branch := true;
     h_avail := h_avail h; h_code := h_code h; h_taken := h_taken h; h_returns := h_returns h |}.
(** riscv_state.h:379-381. *)
Definition set_priv (h : hart) (p : Z) : hart :=
  {| h_xlen := h_xlen h; h_priv := p; h_status := h_status h; h_ip := h_ip h; h_ie := h_ie h;
     h_mideleg := h_mideleg h; h_medeleg := h_medeleg h; h_sideleg := h_sideleg h;
     h_m := h_m h; h_s := h_s h; h_pc := h_pc h; h_branch := h_branch h;
     h_avail := h_avail h; h_code := h_code h; h_taken := h_taken h; h_returns := h_returns h |}.
(** Model only: record update of the interrupt and return counters (riscv_state.h:443-446). *)
Definition set_counts (h : hart) (t r : Z) : hart :=
  {| h_xlen := h_xlen h; h_priv := h_priv h; h_status := h_status h; h_ip := h_ip h; h_ie := h_ie h;
     h_mideleg := h_mideleg h; h_medeleg := h_medeleg h; h_sideleg := h_sideleg h;
     h_m := h_m h; h_s := h_s h; h_pc := h_pc h; h_branch := h_branch h;
     h_avail := h_avail h; h_code := h_code h; h_taken := t; h_returns := r |}.

(** riscv_misa.cc:74-76 HasSupervisorMode: the S bit is set at construction
    (riscv_state.cc:170-174 region) and misa writes are ignored. *)
Definition has_s : bool := true.

(** riscv_state.cc:698-716: destination mode; None = shift amount out of range (UB). *)
Definition dest_mode (h : hart) (q : trapreq) : option Z :=
  if q_int q then
    if 32 <=? q_code q then None
    else if negb (Z.land (mideleg_r h) (Z.shiftl 1 (q_code q)) =? 0) then
      if negb (Z.land (sideleg_r h) (Z.shiftl 1 (q_code q)) =? 0) then Some 0 else Some 1
    else Some 3
  else if negb (h_priv h =? 3) then
    if 64 <=? q_code q then None
    else if negb (Z.land (medeleg_r h) (Z.shiftl 1 (q_code q)) =? 0) then Some 1 else Some 3
  else Some 3.

(** riscv_state.cc:740-744: trap target. *)
Definition trap_target (tvec : Z) (q : trapreq) : Z :=
  let base := Z.land tvec (wnot 64 3) in
  if Z.land tvec 3 =? 1 then wrap 64 (base + wrap 64 (4 * q_code q)) else base.

(** riscv_state.cc:746-761: xepc, xtval, xcause (Set truncates to T; SetBits ors). *)
Definition fill_trapregs (xlen : Z) (q : trapreq) (r : trapregs) : trapregs :=
  {| t_epc := wrap xlen (q_epc q);
     t_cause := let c := wrap xlen (q_code q) in
                if q_int q then Z.lor c (2 ^ (xlen - 1)) else c;
     t_tvec := t_tvec r;
     t_tval := wrap xlen (q_tval q) |}.

(** riscv_state.cc:764-778: staged status fields. *)
Definition stage_trap (dest priv : Z) (s : mstatus) : mstatus :=
  if dest =? 3 then
    let s := ms_stage has_s F_MPP priv s in
    let s := ms_stage has_s F_MPIE (ms_get F_MIE s) s in
    ms_stage has_s F_MIE 0 s
  else
    let s := ms_stage has_s F_SPP (Z.land priv 1) s in
    let s := ms_stage has_s F_SPIE (ms_get F_SIE s) s in
    ms_stage has_s F_SIE 0 s.

(** riscv_state.cc:665-799 Trap (no on_trap_ handler). *)
Definition trap (h : hart) (q : trapreq) : option hart :=
  match dest_mode h q with
  | None => None
  | Some 0 => Some h                         (* "Invalid destination execution mode" *)
  | Some dest =>
      let m_dest := dest =? 3 in
      let regs := if m_dest then h_m h else h_s h in
      let target := trap_target (t_tvec regs) q in
      let regs' := fill_trapregs (h_xlen h) q regs in
      let h := if m_dest then set_trapregs h regs' (h_s h) else set_trapregs h (h_m h) regs' in
      let h := set_stage h (stage_trap dest (h_priv h) (h_status h)) in
      let h := set_pc h target in
      let h := set_priv h dest in
      Some (put_status h (ms_submit (h_status h)))
  end.

(** riscv_state.cc:849-858 TakeAvailableInterrupt. *)
Definition take_interrupt (h : hart) (epc : Z) : option hart :=
  if negb (h_avail h) then Some h
  else match trap h {| q_int := true; q_tval := 0; q_code := h_code h; q_epc := epc |} with
       | None => None
       | Some h => Some (set_counts (set_offer h false code_none) (h_taken h + 1) (h_returns h))
       end.

(** riscv_state.h:322 SignalReturnFromInterrupt, 326-329 InterruptHandlerDepth
    (the int64 difference is converted to int). *)
Definition signal_return (h : hart) : hart := set_counts h (h_taken h) (h_returns h + 1).
(** riscv_state.h:322. *)
Definition handler_depth (h : hart) : Z := sgn 32 (wrap 32 (h_taken h - h_returns h)).

(** riscv_priv_instructions.cc:100-152 (RV32), 237-289 (RV64) mret. *)
Definition mret (h : hart) (addr : Z) : option hart :=
  if negb (h_priv h =? 3) then trap h (illegal addr)
  else
    let h := set_pc h (t_epc (h_m h)) in
    let target_mode := ms_get F_MPP (h_status h) in
    let s := ms_stage has_s F_MIE (ms_get F_MPIE (h_status h)) (h_status h) in
    let s := ms_stage has_s F_MPIE 1 s in
    let s := ms_stage has_s F_MPP 0 s in
    let h := signal_return (set_priv (set_stage h s) target_mode) in
    Some (put_status h (ms_submit (h_status h))).

(** riscv_priv_instructions.cc:45-98 (RV32: mode <> S is illegal), 167-235 (RV64: mode < S). *)
Definition sret_illegal (h : hart) : bool :=
  (if h_xlen h =? 32 then negb (h_priv h =? 1) else h_priv h <? 1)
  || negb (ms_get F_TSR (h_status h) =? 0).
(** riscv_priv_instructions.cc:45-98. *)
Definition sret (h : hart) (addr : Z) : option hart :=
  if sret_illegal h then trap h (illegal addr)
  else
    let h := set_pc h (t_epc (h_s h)) in
    let target_mode := ms_get F_SPP (h_status h) in
    let s := ms_stage has_s F_SIE (ms_get F_SPIE (h_status h)) (h_status h) in
    let s := ms_stage has_s F_SPIE 1 s in
    let s := ms_stage has_s F_SPP 0 s in
    let h := signal_return (set_priv (set_stage h s) target_mode) in
    Some (put_status h (ms_submit (h_status h))).

(** Write/SetBits/ClearBits of a RiscVSimpleCsr<T> with write mask [m] (riscv_csr.h:450-463). *)
Definition plain_word (w m : Z) (o : csr_op) (old : Z) : Z :=
  let write v := Z.lor (Z.land (wrap w v) m) (Z.land old (wnot w m)) in
  match o with
  | CsrWrite v => write v
  | CsrSetBits v => write (Z.lor old v)
  | CsrClearBits v => write (Z.land old (wnot w v))
  end.
(** Model only: record updates. *)
Definition up_epc (v : Z) (r : trapregs) := {| t_epc := v; t_cause := t_cause r; t_tvec := t_tvec r; t_tval := t_tval r |}.
(** Model only: record update. *)
Definition up_cause (v : Z) (r : trapregs) := {| t_epc := t_epc r; t_cause := v; t_tvec := t_tvec r; t_tval := t_tval r |}.
(** Model only: record update. *)
Definition up_tvec (v : Z) (r : trapregs) := {| t_epc := t_epc r; t_cause := t_cause r; t_tvec := v; t_tval := t_tval r |}.
(** Model only: record update. *)
Definition up_tval (v : Z) (r : trapregs) := {| t_epc := t_epc r; t_cause := t_cause r; t_tvec := t_tvec r; t_tval := v |}.

(** A CSR access by software with the accessor of width xlen (riscv_zicsr_instructions.cc:35-46). *)
Definition hart_csr_step (h : hart) (k : hart_csr) (o : csr_op) : hart :=
  let w := h_xlen h in
  let all := Z.ones w in
  match k with
  | K_mstatus => put_status h (ms_word w o (h_status h))
  | K_sstatus => put_status h (sstatus_word w o (h_status h))
  | K_mip => put_ip h (mip_word w o (h_ip h))
  | K_sip => put_ip h (sip_word w (h_mideleg h) o (h_ip h))
  | K_mie => put_ie h (mie_word w o (h_ie h))
  | K_sie => put_ie h (sie_word w (h_mideleg h) o (h_ie h))
  | K_mideleg => set_deleg h (plain_word w mideleg_mask o (h_mideleg h)) (h_medeleg h) (h_sideleg h)
  | K_medeleg => set_deleg h (h_mideleg h) (plain_word w medeleg_mask o (h_medeleg h)) (h_sideleg h)
  | K_sideleg => set_deleg h (h_mideleg h) (h_medeleg h) (plain_word w mideleg_mask o (h_sideleg h))
  | K_mepc => set_trapregs h (up_epc (plain_word w all o (t_epc (h_m h))) (h_m h)) (h_s h)
  | K_mcause => set_trapregs h (up_cause (plain_word w all o (t_cause (h_m h))) (h_m h)) (h_s h)
  | K_mtvec => set_trapregs h (up_tvec (plain_word w all o (t_tvec (h_m h))) (h_m h)) (h_s h)
  | K_mtval => set_trapregs h (up_tval (plain_word w all o (t_tval (h_m h))) (h_m h)) (h_s h)
  | K_sepc => set_trapregs h (h_m h) (up_epc (plain_word w all o (t_epc (h_s h))) (h_s h))
  | K_scause => set_trapregs h (h_m h) (up_cause (plain_word w all o (t_cause (h_s h))) (h_s h))
  | K_stvec => set_trapregs h (h_m h) (up_tvec (plain_word w all o (t_tvec (h_s h))) (h_s h))
  | K_stval => set_trapregs h (h_m h) (up_tval (plain_word w all o (t_tval (h_s h))) (h_s h))
  end.

(** riscv_xip_xie.h:63 set_ext_seip: no check. *)
Definition set_ext_line (h : hart) (v : Z) : hart :=
  put_ip h (mip_set_ext v (h_ip h), false).

(** Model only: dispatch of one operation. *)
Definition hart_step (h : hart) (o : hart_op) : option hart :=
  match o with
  | HException tval code epc => trap h {| q_int := false; q_tval := tval; q_code := code; q_epc := epc |}
  | HTake epc => take_interrupt h epc
  | HMret a => mret h a
  | HSret a => sret h a
  | HCsr k o => Some (hart_csr_step h k o)
  | HLine i v => Some (put_ip h (mip_setter i v (h_ip h)))
  | HExtLine v => Some (set_ext_line h v)
  | HCheck => Some (check_for_interrupt h)
  | HPriv p => Some (set_priv h p)
  end.
(** Model only: a history of operations. *)
Fixpoint hart_run (h : hart) (ops : list hart_op) : option hart :=
  match ops with
  | [] => Some h
  | o :: r => match hart_step h o with Some h' => hart_run h' r | None => None end
  end.

(** riscv_state.cc:128-231, 376-406 initial values; riscv_state.cc:81, 226
    kMstatusInitialValue (the uint64_t one on both widths); riscv_state.h:443-446. *)
Definition zero_regs : trapregs := {| t_epc := 0; t_cause := 0; t_tvec := 0; t_tval := 0 |}.
(** riscv_state.cc:128-231, 376-406. *)
Definition hart_init (xlen pc : Z) : hart :=
  {| h_xlen := xlen; h_priv := 3; h_status := {| ms_value := 0xa00002000; ms_buf := 0; ms_bufmask := 0 |};
     h_ip := {| ip_value := 0; ip_ext := 0 |}; h_ie := 0; h_mideleg := 0; h_medeleg := 0; h_sideleg := 0;
     h_m := zero_regs; h_s := zero_regs; h_pc := wrap xlen pc; h_branch := false;
     h_avail := false; h_code := code_none; h_taken := 0; h_returns := 0 |}.

(** Scenario (not code): properly nested traps.  [Nest q body] is a trap [q] whose
    handler first saves its mode's xepc and xstatus, suffers the nested traps [body],
    writes both registers back with ordinary CSR writes and executes xret. *)
Inductive nest := Nest (q : trapreq) (body : list nest).
(** Scenario: what a CSR read of mstatus gives. *)
Definition read_mstatus (h : hart) : Z :=
  if h_xlen h =? 32 then ms_as_uint32 (h_status h) else ms_as_uint64 (h_status h).
(** Scenario: what a CSR read of sstatus gives. *)
Definition read_sstatus (h : hart) : Z :=
  if h_xlen h =? 32 then sstatus_as_uint32 (h_status h) else sstatus_as_uint64 (h_status h).
(** Scenario: end of a handler. *)
Definition leave_handler (saved h : hart) : option hart :=
  if h_priv saved =? 3 then
    hart_run h [HCsr K_mepc (CsrWrite (t_epc (h_m saved))); HCsr K_mstatus (CsrWrite (read_mstatus saved)); HMret 0]
  else
    hart_run h [HCsr K_sepc (CsrWrite (t_epc (h_s saved))); HCsr K_sstatus (CsrWrite (read_sstatus saved)); HSret 0].
(** Scenario: execution of a nest of traps. *)
Fixpoint run_nest (n : nest) (h : hart) : option hart :=
  match n with
  | Nest q body =>
      match trap h q with
      | None => None
      | Some h1 =>
          match (fix go (l : list nest) (h : hart) : option hart :=
                   match l with
                   | [] => Some h
                   | n :: r => match run_nest n h with Some h' => go r h' | None => None end
                   end) body h1 with
          | None => None
          | Some h2 => leave_handler h1 h2
          end
      end
  end.
(** Scenario (not code): nested traps are legal in mode [p]: no interrupt delegated below the current mode,
    none delegated to user level. *)
Fixpoint nest_ok (mi me si p : Z) (n : nest) : Prop :=
  match n with
  | Nest q body =>
      req_ok q /\
      (q_int q = true -> Z.testbit mi (q_code q) = true -> p <> M_mode /\ Z.testbit si (q_code q) = false) /\
      (fix all (l : list nest) : Prop :=
         match l with [] => True | n :: r => nest_ok mi me si (trap_dest p mi me q) n /\ all r end) body
  end.
