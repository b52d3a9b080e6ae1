(** Specification of a running hart with its traps (C91, C92): instructions of StepSpec.v together with environment calls,
    breakpoints, trap returns, wfi and accesses to the CSRs that control traps, after the RISC-V privileged architecture.
    Exceptions and interrupts enter the handler of HartSpec.v and execution goes on there.  Does not mention the model. *)
From Coq Require Import ZArith List String Bool.
From Verif Require Import Bits FmtSpec DecSpec IntSpec Memory AccessSpec StatusSpec XipSpec CsrSpec HartSpec StepSpec.
Import ListNotations.
Local Open Scope string_scope.
Local Open Scope Z_scope.

(** The state programs can see: registers, pc and memory ([hfs (m_user s)] is mstatus.FS); privilege mode; status fields;
    trap registers and scratch registers of both modes; interrupt enable and delegation registers. *)
Record machine := { m_user : hart; m_priv : Z; m_status : sfield -> Z; m_m : trapregs; m_s : trapregs;
  m_mscratch : Z; m_sscratch : Z; m_mie : Z; m_mideleg : Z; m_medeleg : Z }.
Definition mode_regs (s : machine) (d : Z) : trapregs := if d =? M_mode then m_m s else m_s s.

(** ** Traps *)
Definition exc (t : trap_req) : trapreq :=
  {| q_int := false; q_tval := AccessSpec.t_tval t; q_code := AccessSpec.t_code t; q_epc := AccessSpec.t_epc t |}.
Definition irq (i epc : Z) : trapreq := {| q_int := true; q_tval := 0; q_code := i; q_epc := epc |}.
Definition exn (code epc : Z) : trapreq := {| q_int := false; q_tval := 0; q_code := code; q_epc := epc |}.
(** Nothing but the listed parts changes. *)
Definition same_config (s s' : machine) : Prop :=
  m_mscratch s' = m_mscratch s /\ m_sscratch s' = m_sscratch s /\ m_mie s' = m_mie s /\ m_mideleg s' = m_mideleg s /\ m_medeleg s' = m_medeleg s.
Definition same_regs (s s' : machine) : Prop :=
  keeps_x (m_user s) (m_user s') /\ keeps_f (m_user s) (m_user s') /\ keeps_m (m_user s) (m_user s').
(** Trap [q] taken in state [s] leads to [s']. *)
Definition enters (xlen : Z) (s : machine) (q : trapreq) (s' : machine) : Prop :=
  let d := trap_dest (m_priv s) (m_mideleg s) (m_medeleg s) q in
  same_regs s s' /\ same_config s s' /\ m_priv s' = d /\
  hpc (m_user s') = handler_addr xlen (t_tvec (mode_regs s d)) q /\
  (d = M_mode -> m_m s' = trapregs_after xlen q (m_m s) /\ m_s s' = m_s s /\
                 forall f, m_status s' f = status_after_trap_m (m_priv s) (m_status s) f) /\
  (d = S_mode -> m_s s' = trapregs_after xlen q (m_s s) /\ m_m s' = m_m s /\
                 forall f, m_status s' f = status_after_trap_s (m_priv s) (m_status s) f).

(** Interrupts of the mode interrupt [i] goes to are enabled. *)
Definition globally_on (s : machine) (i : Z) : bool :=
  if Z.testbit (m_mideleg s) i then s_on (m_priv s) (m_status s F_SIE) else m_on (m_priv s) (m_status s F_MIE).

(** ** System instructions *)
Inductive csr_kind := KWrite | KSet | KClear.
(** CSR instructions: operation, and the operand: rs1 or the immediate in its place. *)
Inductive sysi := YEcall | YEbreak | YMret | YSret | YWfi | YCsr (k : csr_kind) (v : opd).
Definition sys_semantics (m : string) : option sysi :=
  option_map snd (find (fun p => String.eqb (fst p) m)
   [("ecall", YEcall); ("ebreak", YEbreak); ("c.ebreak", YEbreak); ("mret", YMret); ("sret", YSret); ("wfi", YWfi);
    ("csrrw", YCsr KWrite rs1); ("csrrs", YCsr KSet rs1); ("csrrc", YCsr KClear rs1);
    ("csrrwi", YCsr KWrite (Imm o_zimm)); ("csrrsi", YCsr KSet (Imm o_zimm)); ("csrrci", YCsr KClear (Imm o_zimm))]).

(** The CSRs described here. *)
Inductive csr := SScratch | SEpc | SCause | STval | STvec | MScratch | MEpc | MCause | MTval | MTvec | Mie | Mideleg | Medeleg | Mstatus.
Definition csr_name (n : Z) : option csr :=
  option_map snd (find (fun p => fst p =? n)
   [(0x105, STvec); (0x140, SScratch); (0x141, SEpc); (0x142, SCause); (0x143, STval);
    (0x300, Mstatus); (0x302, Medeleg); (0x303, Mideleg); (0x304, Mie);
    (0x305, MTvec); (0x340, MScratch); (0x341, MEpc); (0x342, MCause); (0x343, MTval)]).
(** What they hold; mstatus is described by its fields, see below. *)
Definition csr_value (s : machine) (c : csr) : Z :=
  match c with
  | SScratch => m_sscratch s | SEpc => HartSpec.t_epc (m_s s) | SCause => t_cause (m_s s) | STval => HartSpec.t_tval (m_s s) | STvec => t_tvec (m_s s)
  | MScratch => m_mscratch s | MEpc => HartSpec.t_epc (m_m s) | MCause => t_cause (m_m s) | MTval => HartSpec.t_tval (m_m s) | MTvec => t_tvec (m_m s)
  | Mie => m_mie s | Mideleg => m_mideleg s | Medeleg => m_medeleg s | Mstatus => 0 end.
(** Reading [c] may give [v]. *)
Definition csr_reads (xlen : Z) (s : machine) (c : csr) (v : Z) : Prop :=
  match c with
  | Mstatus => 0 <= v < 2 ^ xlen /\ forall f, field_of f v = m_status s f
  | _ => v = csr_value s c end.
(** Return addresses are always aligned; mie and mideleg have one bit for each interrupt, medeleg one for each exception
    other than the environment call from M mode; the other registers hold any value. *)
Definition legalized (has_c : bool) (c : csr) (v : Z) : Z :=
  match c with
  | SEpc | MEpc => v - v mod (if has_c then 2 else 4)
  | Mie | Mideleg => Z.land v 0xbbb    (* 0, 1, 3, 4, 5, 7, 8, 9, 11 *)
  | Medeleg => Z.land v 0xb3ff         (* 0-9, 12, 13, 15 *)
  | _ => v end.
Definition csr_after (k : csr_kind) (old v : Z) : Z :=
  match k with KWrite => v | KSet => Z.lor old v | KClear => Z.land old (Z.lnot v) end.
(** Value [x] of a status field after [v] is written to it: MPP only holds modes that exist. *)
Definition field_takes (f : sfield) (v x : Z) : Prop :=
  match f with F_MPP => if v =? 2 then x <> 2 else x = v | _ => x = v end.
(** [v] is written to [c], the other CSRs are kept. *)
Definition csr_written (has_c : bool) (s s' : machine) (c : csr) (v : Z) : Prop :=
  (forall d, d <> c -> csr_value s' d = csr_value s d) /\
  (c <> Mstatus -> csr_value s' c = legalized has_c c v) /\
  (forall f, match c with Mstatus => field_takes f (field_of f v) (m_status s' f) | _ => m_status s' f = m_status s f end).
Definition csr_kept (s s' : machine) : Prop :=
  (forall d, csr_value s' d = csr_value s d) /\ (forall f, m_status s' f = m_status s f).

(** The exception a system instruction raises. *)
Definition sys_raises (y : sysi) (w : Z) (s : machine) (q : trapreq) : Prop :=
  let pc := hpc (m_user s) in
  match y with
  | YEcall => q = exn (8 + m_priv s) pc
  | YEbreak => q = exn 3 pc
  | YMret => m_priv s <> M_mode /\ q = exn 2 pc
  | YSret => (m_priv s = U_mode \/ m_priv s = S_mode /\ m_status s F_TSR = 1) /\ q = exn 2 pc
  | YWfi => False
  | YCsr _ _ => exists n, encodes o_csr w n /\ m_priv s < n / 256 mod 4 /\ q = exn 2 pc
  end.
(** What it does if it raises none. *)
Definition sys_does (xlen : Z) (has_c : bool) (size : Z) (y : sysi) (w : Z) (s s' : machine) : Prop :=
  let pc := hpc (m_user s) in let pc' := hpc (m_user s') in
  let next := (pc + size) mod 2 ^ xlen in
  match y with
  | YEcall | YEbreak => False
  | YMret => same_regs s s' /\ same_config s s' /\ m_m s' = m_m s /\ m_s s' = m_s s /\
      pc' = HartSpec.t_epc (m_m s) /\ m_priv s' = m_status s F_MPP /\ (forall f, m_status s' f = status_after_mret (m_status s) f)
  | YSret => same_regs s s' /\ same_config s s' /\ m_m s' = m_m s /\ m_s s' = m_s s /\
      pc' = HartSpec.t_epc (m_s s) /\ m_priv s' = m_status s F_SPP /\ (forall f, m_status s' f = status_after_sret (m_status s) f)
  | YWfi => same_regs s s' /\ same_config s s' /\ m_m s' = m_m s /\ m_s s' = m_s s /\ pc' = next /\
      m_priv s' = m_priv s /\ (forall f, m_status s' f = m_status s f)
  | YCsr k v => exists n c d x old, encodes o_csr w n /\ csr_name n = Some c /\ encodes o_rd w d /\ opd_value xlen w (m_user s) v x /\
      csr_reads xlen s c old /\ writes_x (m_user s) (m_user s') d old /\
      (forall n, hf (m_user s') n = hf (m_user s) n) /\ hfs (m_user s') = m_status s' F_FS /\ keeps_m (m_user s) (m_user s') /\ pc' = next /\
      m_priv s' = m_priv s /\
      (* csrrs and csrrc do not write if the field of rs1 is 0 *)
      match k with
      | KWrite => csr_written has_c s s' c x
      | _ => if bits w (19, 15) =? 0 then csr_kept s s' else csr_written has_c s s' c (csr_after k old x) end
  end.

(** ** Execution *)
Section Machine.
  Variables (xlen : Z) (has_c : bool) (limit : Z) (man32 man16 : list entry).
  Let steps := steps_to xlen has_c limit man32 man16.
  Definition is_sys (s : machine) (iw : Z) (y : sysi) : Prop :=
    hpc (m_user s) <= limit /\ fetched (m_user s) iw /\
    exists e, In e (if long iw then man32 else man16) /\ means e (word_of iw) /\ sys_semantics (mnemonic e) = Some y.
  (** The exception raised by the instruction at pc. *)
  Definition excepts (s : machine) (q : trapreq) : Prop :=
    (exists t u, steps (m_user s) (Raise t u) /\ q = exc t) \/ (exists iw y, is_sys s iw y /\ sys_raises y (word_of iw) s q).
  (** Execution of the instruction at pc, including the entry into the handler if it raises an exception. *)
  Inductive acts (s s' : machine) : Prop :=
    | act_user : steps (m_user s) (Done (m_user s')) -> same_config s s' -> m_m s' = m_m s -> m_s s' = m_s s ->
        m_priv s' = m_priv s -> (forall f, f <> F_FS -> m_status s' f = m_status s f) ->
        m_status s' F_FS = hfs (m_user s') -> acts s s'
    | act_trap q : excepts s q -> enters xlen s q s' -> acts s s'
    | act_sys iw y : is_sys s iw y -> (forall q, ~ sys_raises y (word_of iw) s q) ->
        sys_does xlen has_c (size_of iw) y (word_of iw) s s' -> acts s s'.
  (** An interrupt taken between two instructions, or none.  It has to be enabled in mie, and the interrupts of the mode
      it is delegated to have to be enabled; the return address is the address of the instruction that would have been next. *)
  Definition interrupted (o : option Z) (s s' : machine) : Prop :=
    match o with
    | None => s' = s
    | Some i => is_irq i = true /\ Z.testbit (m_mie s) i = true /\ globally_on s i = true /\ enters xlen s (irq i (hpc (m_user s))) s' end.
  (** As many instructions as the list is long, [o] being the interrupt taken after the instruction. *)
  Inductive m_runs : list (option Z) -> machine -> machine -> Prop :=
    | mr_end s : m_runs [] s s
    | mr_step o os s s1 s2 s' : acts s s1 -> interrupted o s1 s2 -> m_runs os s2 s' -> m_runs (o :: os) s s'.
End Machine.

(** States of a hart. *)
Record machine_ok (xlen : Z) (s : machine) : Prop := {
  mo_user : hart_ok xlen (m_user s);
  mo_fs : hfs (m_user s) = m_status s F_FS;
  mo_priv : m_priv s = U_mode \/ m_priv s = S_mode \/ m_priv s = M_mode;
  mo_mpp : m_status s F_MPP <> 2;
  mo_scratch : 0 <= m_mscratch s < 2 ^ xlen /\ 0 <= m_sscratch s < 2 ^ xlen;
  mo_epc : HartSpec.t_epc (m_m s) mod 2 = 0 /\ HartSpec.t_epc (m_s s) mod 2 = 0 }.

(** ** The part of the behaviour the simulator is proved to follow *)
Section MachineCovered.
  Variables (xlen : Z) (has_c : bool) (limit : Z) (D32 D16 : decoder_spec) (broken : list string).
  (** States in which the simulator is known not to do what the manual says of the instruction: sret in M mode is
      rejected on RV32, and on RV64 if TSR is set; misaligned return addresses are stored; MPP can be set to the
      reserved mode 2. *)
  Definition sys_deviates (y : sysi) (w : Z) (s : machine) : Prop :=
    match y with
    | YSret => m_priv s = M_mode /\ (xlen = 32 \/ m_status s F_TSR = 1)
    | YCsr k v => (k = KWrite \/ bits w (19, 15) <> 0) /\
        exists n c x old, encodes o_csr w n /\ csr_name n = Some c /\ opd_value xlen w (m_user s) v x /\ csr_reads xlen s c old /\
          ((c = SEpc \/ c = MEpc) /\ legalized has_c c (csr_after k old x) <> csr_after k old x \/
           c = Mstatus /\ field_of F_MPP (csr_after k old x) = 2)
    | _ => False
    end.
  (** The word is a system instruction described above and nothing known to go wrong applies. *)
  Definition sys_regular (s : machine) (iw : Z) (y : sysi) : Prop :=
    (exists e, In e (ds_manual (spec_of D32 D16 iw)) /\ means e (word_of iw) /\ sys_semantics (mnemonic e) = Some y /\
       ~ listed (ds_missing (spec_of D32 D16 iw)) (mnemonic e) (word_of iw)) /\
    (forall k v, y = YCsr k v -> exists n c, encodes o_csr (word_of iw) n /\ csr_name n = Some c) /\
    ~ sys_deviates y (word_of iw) s.
  Let act := acts xlen has_c limit (ds_manual D32) (ds_manual D16).
  Let run := m_runs xlen has_c limit (ds_manual D32) (ds_manual D16).
  Definition m_covered (s : machine) : Prop :=
    (has_c = true \/ hpc (m_user s) mod 4 = 0) /\
    (hpc (m_user s) <= limit -> forall iw, fetched (m_user s) iw ->
       unknown D32 D16 iw \/
       hpc (m_user s) + size_of iw < 2 ^ xlen /\
       ((exists m i, regular xlen has_c D32 D16 broken (m_user s) iw m i) \/ (exists y, sys_regular s iw y))) /\
    (* exceptions are not vectored, but the simulator does vector them *)
    (forall q, excepts xlen has_c limit (ds_manual D32) (ds_manual D16) s q ->
       t_tvec (mode_regs s (trap_dest (m_priv s) (m_mideleg s) (m_medeleg s) q)) mod 4 <> 1).
  (** Along every run from [s] of at most [n] instructions, however interrupted; an instruction executed again has not
      been overwritten. *)
  Definition m_covered_run (n : nat) (s : machine) : Prop :=
    (forall os s', (List.length os < n)%nat -> run os s s' -> m_covered s') /\
    (forall os1 os2 s1 s2, (List.length (os1 ++ os2) < n)%nat -> run os1 s s1 -> run os2 s1 s2 ->
       hpc (m_user s2) = hpc (m_user s1) -> forall iw, fetched (m_user s1) iw -> fetched (m_user s2) iw).
End MachineCovered.
