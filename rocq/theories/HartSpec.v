(** Specification of traps, returns and interrupt selection (C10-C17, C56, C57),
    following the RISC-V privileged architecture.  Does not mention the model. *)
From Coq Require Import ZArith Bool List.
From Verif Require Import CsrSpec StatusSpec XipSpec.
Import ListNotations.
Local Open Scope Z_scope.

(** Privilege modes. *)
Definition U_mode : Z := 0.
Definition S_mode : Z := 1.
Definition M_mode : Z := 3.

(** The four registers one mode uses to describe a trap. *)
Record trapregs := { t_epc : Z; t_cause : Z; t_tvec : Z; t_tval : Z }.

(** A trap request: interrupt or exception, trap value, cause code, return address. *)
Record trapreq := { q_int : bool; q_tval : Z; q_code : Z; q_epc : Z }.

(** Mode that handles a trap raised in mode [priv]: an interrupt goes to S iff its
    bit is set in the interrupt delegation register; an exception goes to S iff its bit
    is set in the exception delegation register and it was raised below M. *)
Definition trap_dest (priv mideleg medeleg : Z) (q : trapreq) : Z :=
  if q_int q then (if Z.testbit mideleg (q_code q) then S_mode else M_mode)
  else if negb (priv =? M_mode) && Z.testbit medeleg (q_code q) then S_mode else M_mode.

(** Architected handler address: base for exceptions, base + 4*cause for interrupts in
    vectored mode (tvec[1:0] = 1). *)
Definition handler_addr (xlen tvec : Z) (q : trapreq) : Z :=
  let base := tvec - tvec mod 4 in
  if q_int q && (tvec mod 4 =? 1) then (base + 4 * q_code q) mod 2 ^ xlen else base.

(** Trap registers of the handling mode after the trap; cause has its top bit set for
    an interrupt. *)
Definition trapregs_after (xlen : Z) (q : trapreq) (old : trapregs) : trapregs :=
  {| t_epc := q_epc q mod 2 ^ xlen;
     t_cause := q_code q + (if q_int q then 2 ^ (xlen - 1) else 0);
     t_tvec := t_tvec old;
     t_tval := q_tval q mod 2 ^ xlen |}.

(** Status fields after a trap into M / S mode, and after mret / sret, as functions of
    the fields before. *)
Definition status_after_trap_m (priv : Z) (old : sfield -> Z) (f : sfield) : Z :=
  match f with F_MPP => priv | F_MPIE => old F_MIE | F_MIE => 0 | _ => old f end.
Definition status_after_trap_s (priv : Z) (old : sfield -> Z) (f : sfield) : Z :=
  match f with F_SPP => priv mod 2 | F_SPIE => old F_SIE | F_SIE => 0 | _ => old f end.
Definition status_after_mret (old : sfield -> Z) (f : sfield) : Z :=
  match f with F_MPP => U_mode | F_MPIE => 1 | F_MIE => old F_MPIE | _ => old f end.
Definition status_after_sret (old : sfield -> Z) (f : sfield) : Z :=
  match f with F_SPP => U_mode | F_SPIE => 1 | F_SIE => old F_SPIE | _ => old f end.

(** Illegal-instruction exception. *)
Definition illegal (addr : Z) : trapreq :=
  {| q_int := false; q_tval := 0; q_code := 2; q_epc := addr |}.

(** ** Interrupt selection.
    [M] and [S] levels; [pend], [enab], [deleg] are bit tests on the pending, enable and
    delegation registers, [udeleg] on the user delegation register. *)
Definition irq_level_m (deleg : Z -> bool) (i : Z) : bool := negb (deleg i).
Definition irq_level_s (deleg udeleg : Z -> bool) (i : Z) : bool := deleg i && negb (udeleg i).
(** Level is globally enabled: running below the level, or at it with its enable bit. *)
Definition m_on (priv mie : Z) : bool := negb (priv =? M_mode) || (mie =? 1).
Definition s_on (priv sie : Z) : bool := (priv <? S_mode) || ((priv =? S_mode) && (sie =? 1)).

Record irq_view := { iv_pend : Z -> bool; iv_enab : Z -> bool; iv_deleg : Z -> bool;
                     iv_udeleg : Z -> bool; iv_priv : Z; iv_mie : Z; iv_sie : Z }.

Definition m_eligible (v : irq_view) (i : Z) : bool :=
  is_irq i && iv_pend v i && iv_enab v i && irq_level_m (iv_deleg v) i && m_on (iv_priv v) (iv_mie v).
Definition s_eligible (v : irq_view) (i : Z) : bool :=
  is_irq i && iv_pend v i && iv_enab v i && irq_level_s (iv_deleg v) (iv_udeleg v) i && s_on (iv_priv v) (iv_sie v).
Definition eligible (v : irq_view) (i : Z) : bool := m_eligible v i || s_eligible v i.

(** Architected priority, highest first: MEI MSI MTI SEI SSI STI UEI USI UTI. *)
Definition irq_order : list Z := [11; 3; 7; 9; 1; 5; 8; 0; 4].
Fixpoint pos (i : Z) (l : list Z) : Z :=
  match l with [] => 0 | j :: r => if i =? j then 0 else 1 + pos i r end.
(** [i] is taken before [j]: machine level first, then by the fixed order. *)
Definition before (v : irq_view) (i j : Z) : Prop :=
  (m_eligible v i = true /\ m_eligible v j = false) \/
  (m_eligible v i = m_eligible v j /\ pos i irq_order < pos j irq_order).

(** The interrupt that must be offered, if any. *)
Definition best_irq (v : irq_view) (i : Z) : Prop :=
  eligible v i = true /\ forall j, eligible v j = true -> j <> i -> before v i j.

(** ** API operations on a hart. [w] is the width of the CSR access. *)
Inductive hart_csr := K_mstatus | K_sstatus | K_mip | K_sip | K_mie | K_sie | K_mideleg | K_medeleg | K_sideleg
  | K_mepc | K_mcause | K_mtvec | K_mtval | K_sepc | K_scause | K_stvec | K_stval.
Inductive hart_op :=
| HException (tval code epc : Z)       (* Trap raised by an instruction *)
| HTake (epc : Z)                      (* TakeAvailableInterrupt *)
| HMret (addr : Z)
| HSret (addr : Z)
| HCsr (k : hart_csr) (o : csr_op)     (* CSR access by software *)
| HLine (i v : Z)                      (* a device drives bit i of mip *)
| HExtLine (v : Z)                     (* external supervisor line *)
| HCheck                               (* CheckForInterrupt *)
| HPriv (p : Z).                       (* set_privilege_mode *)

(** Requests the code issues: cause below 32, 64-bit values. *)
Definition req_ok (q : trapreq) : Prop :=
  0 <= q_code q < 32 /\ 0 <= q_tval q < 2 ^ 64 /\ 0 <= q_epc q < 2 ^ 64.
(** Histories the API admits on a hart of width [xlen]. *)
Definition u64_ok (v : Z) : bool := (0 <=? v) && (v <? 2 ^ 64).
Definition csr_arg (o : csr_op) : Z := match o with CsrWrite v | CsrSetBits v | CsrClearBits v => v end.
Definition hart_op_ok (xlen : Z) (o : hart_op) : bool :=
  match o with
  | HException tval code epc => u64_ok tval && u64_ok epc && (0 <=? code) && (code <? 32)
  | HTake a | HMret a | HSret a => u64_ok a
  | HCsr _ o => (0 <=? csr_arg o) && (csr_arg o <? 2 ^ xlen)
  | HLine i v => is_irq i && u64_ok v
  | HExtLine _ | HCheck => true
  | HPriv p => (0 <=? p) && (p <? 4)
  end.
