(** Model of /repo/riscv/riscv_counter_csr.h. *)
From Coq Require Import ZArith Bool List.
From Verif Require Import Bits CsrSpec CounterSpec.
Import ListNotations.
Local Open Scope Z_scope.

(** riscv_counter_csr.h:70-73 GetCounterValue: the event counter (uint64_t, [ev] here)
    truncated to T; a CSR without a counter attached reads event value 0, which is the
    case [ev = 0].  riscv_counter_csr.h:45-51 GetUint32/GetUint64. *)
Definition c_get (w ev offset : Z) : Z := wrap w (wrap w ev + offset).
(** riscv_counter_csr.h:55-58 Set. *)
Definition c_set (w ev v : Z) : Z := wrap w (wrap w v - wrap w ev).
(** riscv_csr.h:450-463 Write/SetBits/ClearBits with the all-ones write mask given by the
    constructor at riscv_csr.h:382-387. *)
Definition c_access (w ev offset : Z) (o : csr_op) : Z :=
  let write v := c_set w ev (Z.lor (Z.land v (Z.ones w)) (Z.land (c_get w ev offset) (wnot w (Z.ones w)))) in
  match o with
  | CsrWrite v => write v
  | CsrSetBits v => write (Z.lor (c_get w ev offset) v)
  | CsrClearBits v => write (Z.land (c_get w ev offset) (wnot w v))
  end.
(** riscv_counter_csr.h:92-99 RiscVPerformanceCounterCsr::Set. *)
Definition pc_set (w ev v : Z) : Z := wrap w (c_set w ev v - 1).

(** Several counter CSRs on one event counter (SimpleCounter<uint64_t>, incremented by
    the simulator; wraps at 2^64). *)
Record counters := { ct_ev : Z; ct_offs : list Z }.
(** Model only: dispatch of one operation. *)
Definition ctr_step (w : Z) (s : counters) (o : ctr_op) : counters :=
  match o with
  | Events n => {| ct_ev := wrap 64 (ct_ev s + n); ct_offs := ct_offs s |}
  | Access k o => {| ct_ev := ct_ev s; ct_offs := upd k (fun off => c_access w (ct_ev s) off o) (ct_offs s) |}
  end.
(** What GetUint of each counter returns. *)
Definition ctr_vals (w : Z) (s : counters) : list Z := map (c_get w (ct_ev s)) (ct_offs s).

(** ** RV32 pair.  Low CSR: RiscVCounterCsr<uint32_t>; high CSR: riscv_counter_csr.h:104-154. *)
Record pair := { pr_ev : Z; pr_lo : Z; pr_hi : Z }.
(** riscv_counter_csr.h:104-154. *)
Definition pair_low (p : pair) : Z := c_get 32 (pr_ev p) (pr_lo p).
(** riscv_counter_csr.h:115-120 GetUint32 of the high CSR. *)
Definition pair_high (p : pair) : Z :=
  wrap 32 (Z.shiftr (wrap 64 (pr_ev p + Z.lor (wrap 64 (Z.shiftl (pr_hi p) 32)) (pr_lo p))) 32).
(** riscv_counter_csr.h:125-133 Set of the high CSR. *)
Definition high_offset (ev lo v : Z) : Z :=
  let carry := 0x100000000 <=? wrap 32 ev + lo in
  wrap 64 (wrap 32 v - Z.shiftr ev 32 - (if carry then 1 else 0)).
(** Model only: dispatch of one operation. *)
Definition pair_step (p : pair) (o : pair_op) : pair :=
  match o with
  | PEvents n => {| pr_ev := wrap 64 (pr_ev p + n); pr_lo := pr_lo p; pr_hi := pr_hi p |}
  | PWriteLow v => {| pr_ev := pr_ev p; pr_lo := c_set 32 (pr_ev p) v; pr_hi := pr_hi p |}
  | PWriteHigh v => {| pr_ev := pr_ev p; pr_lo := pr_lo p; pr_hi := high_offset (pr_ev p) (pr_lo p) v |}
  end.
(** Performance pair (minstret/minstreth): riscv_counter_csr.h:92-99 and 173-187. *)
Definition ppair_step (p : pair) (o : pair_op) : pair :=
  match o with
  | PEvents n => {| pr_ev := wrap 64 (pr_ev p + n); pr_lo := pr_lo p; pr_hi := pr_hi p |}
  | PWriteLow v => {| pr_ev := pr_ev p; pr_lo := pc_set 32 (pr_ev p) v; pr_hi := pr_hi p |}
  | PWriteHigh v =>
      let hi := high_offset (pr_ev p) (pr_lo p) v in
      {| pr_ev := pr_ev p; pr_lo := wrap 32 (pr_lo p - 1);
         pr_hi := if pr_lo p =? 0 then wrap 64 (hi - 1) else hi |}
  end.
(** riscv_state.cc:668-679 (Trap): minstret->Set(minstret->AsUint64()). *)
Definition ppair_trap (p : pair) : pair := ppair_step p (PWriteLow (pair_low p)).
(** The 64-bit value shown by the two CSRs. *)
Definition pair_val (p : pair) : Z := pair_high p * 2 ^ 32 + pair_low p.
