(** Model of RiscVTop::Step as it executes on across traps: the instructions of StepModel.v together with ecall, ebreak,
    mret, sret, wfi and the CSR instructions on the CSRs that control traps, the trap entry of HartModel.v, and the
    interrupt check after each instruction.

    Not modelled: breakpoints and other callbacks (on_ecall_, on_wfi_, on_trap_ are null; the ebreak handler of
    riscv_top.cc:188-199 finds no action point and declines), halts, counters, accesses to other CSRs, uret, sfence.vma. *)
From Coq Require Import ZArith List String Bool.
From Verif Require Import Bits FmtModel DecModel Memory AccessSpec AccessModel CsrSpec StatusSpec StatusModel XipSpec XipModel
  HartSpec HartModel StepSpec StepModel MachSpec.
Import ListNotations.
Local Open Scope string_scope.
Local Open Scope Z_scope.

(** Model only: the parts of RiscVState: registers, pc (the loop variable of Step) and memory; privilege, status, trap
    and interrupt state; mscratch and sscratch (riscv_state.cc:176-231, 377-394: RiscVSimpleCsr with all-ones masks). *)
Record top := { tu : StepSpec.hart; tp : HartModel.hart; t_mscr : Z; t_sscr : Z }.
(** Model only: the view of StepModel.v; its FS field is the one of mstatus. *)
Definition user (t : top) : StepSpec.hart :=
  {| hx := hx (tu t); hf := hf (tu t); hpc := hpc (tu t); hm := hm (tu t); hfs := ms_get F_FS (h_status (tp t)) |}.
(** riscv_top.cc:330 SetPc(pc); branch_ is false there: lines 355-356 of the previous round cleared it. *)
Definition begin_inst (p : HartModel.hart) (pc : Z) : HartModel.hart :=
  {| h_xlen := h_xlen p; h_priv := h_priv p; h_status := h_status p; h_ip := h_ip p; h_ie := h_ie p;
     h_mideleg := h_mideleg p; h_medeleg := h_medeleg p; h_sideleg := h_sideleg p;
     h_m := h_m p; h_s := h_s p; h_pc := wrap (h_xlen p) pc; h_branch := false;
     h_avail := h_avail p; h_code := h_code p; h_taken := h_taken p; h_returns := h_returns p |}.
(** riscv_top.cc:353-361: the next address is the pc register's if branch_ is set, else [pc]. *)
Definition next_of (p : HartModel.hart) (pc : Z) : Z := if h_branch p then h_pc p else pc.
(** Model only: replace the pc. *)
Definition at_pc (u : StepSpec.hart) (pc : Z) : StepSpec.hart :=
  {| hx := hx u; hf := hf u; hpc := pc; hm := hm u; hfs := hfs u |}.
(** Model only: registers [u] and privileged state [p] after an instruction. *)
Definition moved (t : top) (u : StepSpec.hart) (p : HartModel.hart) : top :=
  {| tu := at_pc u (next_of p (hpc u)); tp := p; t_mscr := t_mscr t; t_sscr := t_sscr t |}.
(** The instruction has called RiscVState::Trap (riscv_state.cc:665-799, HartModel.trap).  An exception always has a
    destination, so branch_ is then set. *)
Definition deliver (t : top) (u : StepSpec.hart) (q : trapreq) : option top :=
  option_map (moved t u) (HartModel.trap (begin_inst (tp t) (hpc u)) q).
(** Model only: outcome of an instruction of StepModel.v, whose Done already holds the next address. *)
Definition finish (t : top) (out : outcome) : option top :=
  match out with
  | Done u => Some (moved t u (begin_inst (tp t) (hpc (tu t))))
  | Raise r u => deliver t u (exc r)
  end.

(** ** System instructions *)
(** Model only: their semantic functions. *)
Inductive sysfn := FEcall | FEbreak | FMret | FSret | FWfi | FCsrrw | FCsrrs | FCsrrc | FCsrrwNr | FCsrrNw.
(** riscv_i_instructions.cc:614-627, riscv_priv_instructions.cc:45-289, riscv_zicsr_instructions.cc:70-245. *)
Definition sysfns : list (string * sysfn) := [
   ("RiscVIEcall", FEcall); ("RiscVIEbreak", FEbreak); ("RiscVPrivMRet", FMret); ("RiscVPrivSRet", FSret);
   ("RiscVPrivWfi", FWfi); ("RiscVZiCsrrw", FCsrrw); ("RiscVZiCsrrs", FCsrrs); ("RiscVZiCsrrc", FCsrrc);
   ("RiscVZiCsrrwNr", FCsrrwNr); ("RiscVZiCsrrNw", FCsrrNw)].
(** riscv32g.isa:215-220, 382-390, 556-620, 1007-1010; riscv64g.isa:276-281, 446-454, 695-760, 1186-1189: the rows of the two files
    are the same, with the semantic functions of the namespace of the register width (left out here). *)
Definition sys_isa : list irow := [
   mk_irow "ecall" 4 [] [] "RiscVIEcall" "";
   mk_irow "ebreak" 4 [] [] "RiscVIEbreak" "";
   mk_irow "cebreak" 2 [] [] "RiscVIEbreak" "";
   mk_irow "sret" 4 [] ["NextPc"] "RiscVPrivSRet" "";
   mk_irow "mret" 4 [] ["NextPc"] "RiscVPrivMRet" "";
   mk_irow "wfi" 4 [] [] "RiscVPrivWfi" "";
   mk_irow "csrrw" 4 ["Rs1"; "Csr"] ["Rd"; "Csr"] "RiscVZiCsrrw" "";
   mk_irow "csrrs" 4 ["Rs1"; "Csr"] ["Rd"; "Csr"] "RiscVZiCsrrs" "";
   mk_irow "csrrc" 4 ["Rs1"; "Csr"] ["Rd"; "Csr"] "RiscVZiCsrrc" "";
   mk_irow "csrrs_nr" 4 ["Rs1"; "Csr"] ["Rd"; "Csr"] "RiscVZiCsrrs" "";
   mk_irow "csrrc_nr" 4 ["Rs1"; "Csr"] ["Rd"; "Csr"] "RiscVZiCsrrc" "";
   mk_irow "csrrw_nr" 4 ["Rs1"; "Csr"] ["Csr"] "RiscVZiCsrrwNr" "";
   mk_irow "csrrs_nw" 4 ["Csr"] ["Rd"] "RiscVZiCsrrNw" "";
   mk_irow "csrrc_nw" 4 ["Csr"] ["Rd"] "RiscVZiCsrrNw" "";
   mk_irow "csrrwi" 4 ["CSRUimm5"; "Csr"] ["Rd"; "Csr"] "RiscVZiCsrrw" "";
   mk_irow "csrrsi" 4 ["CSRUimm5"; "Csr"] ["Rd"; "Csr"] "RiscVZiCsrrs" "";
   mk_irow "csrrci" 4 ["CSRUimm5"; "Csr"] ["Rd"; "Csr"] "RiscVZiCsrrc" "";
   mk_irow "csrrsi_nr" 4 ["CSRUimm5"; "Csr"] ["Rd"; "Csr"] "RiscVZiCsrrs" "";
   mk_irow "csrrci_nr" 4 ["CSRUimm5"; "Csr"] ["Rd"; "Csr"] "RiscVZiCsrrc" "";
   mk_irow "csrrwi_nr" 4 ["CSRUimm5"; "Csr"] ["Csr"] "RiscVZiCsrrwNr" "";
   mk_irow "csrrsi_nw" 4 ["Csr"] ["Rd"] "RiscVZiCsrrNw" "";
   mk_irow "csrrci_nw" 4 ["Csr"] ["Rd"] "RiscVZiCsrrNw" ""].
(** riscv32g_encoding.cc:147-150, 178-186, riscv64g_encoding.cc:165-168, 200-208, riscv32g_vec_encoding.cc:319-322, 350-358,
    riscv64g_vec_encoding.cc:258-261, 293-301, riscv_getters.h:93-96, 115-123: the sources only these instructions have. *)
Definition sys_src (S : simulator) (names : list string) (i : nat) : option src :=
  match nth_error names i with
  | Some n => if String.eqb n "Csr" then Some (SImm f_IType "u_imm12" false)
              else if String.eqb n "CSRUimm5" then Some (SImm f_IType "i_uimm5" false) else assoc (s_src S) n
  | None => None end.

(** riscv_csr.h:36-180 (kSTvec ... kMTval) and riscv_state.cc:176-231, 377-402: the CSR with that number; None: another one. *)
Definition csr_no (n : Z) : option csr :=
  if n =? 0x105 then Some STvec else if n =? 0x140 then Some SScratch else if n =? 0x141 then Some SEpc
  else if n =? 0x142 then Some SCause else if n =? 0x143 then Some STval
  else if n =? 0x300 then Some Mstatus else if n =? 0x302 then Some Medeleg else if n =? 0x303 then Some Mideleg
  else if n =? 0x304 then Some Mie
  else if n =? 0x305 then Some MTvec else if n =? 0x340 then Some MScratch else if n =? 0x341 then Some MEpc
  else if n =? 0x342 then Some MCause else if n =? 0x343 then Some MTval else None.
(** riscv_zicsr_instructions.cc:33-44 ReadCsr: the stored value of a RiscVSimpleCsr under its read mask (riscv_csr.h:443-448;
    all ones except for the delegation registers), riscv_xstatus.h and riscv_xip_xie.h for mstatus and mie. *)
Definition read_csr (t : top) (c : csr) : Z :=
  let m := h_m (tp t) in let s := h_s (tp t) in
  match c with
  | SScratch => t_sscr t | SEpc => HartSpec.t_epc s | SCause => t_cause s | STval => HartSpec.t_tval s | STvec => t_tvec s
  | MScratch => t_mscr t | MEpc => HartSpec.t_epc m | MCause => t_cause m | MTval => HartSpec.t_tval m | MTvec => t_tvec m
  | Mie => mie_as_uint (h_xlen (tp t)) (h_ie (tp t)) | Mideleg => mideleg_r (tp t) | Medeleg => medeleg_r (tp t)
  | Mstatus => read_mstatus (tp t) end.
(** riscv_csr.h:450-463 Write, SetBits, ClearBits, and the corresponding functions of mstatus and mie (HartModel.v). *)
Definition update_csr (t : top) (c : csr) (o : csr_op) : top :=
  let w := h_xlen (tp t) in
  let put k := {| tu := tu t; tp := hart_csr_step (tp t) k o; t_mscr := t_mscr t; t_sscr := t_sscr t |} in
  match c with
  | SScratch => {| tu := tu t; tp := tp t; t_mscr := t_mscr t; t_sscr := plain_word w (Z.ones w) o (t_sscr t) |}
  | MScratch => {| tu := tu t; tp := tp t; t_mscr := plain_word w (Z.ones w) o (t_mscr t); t_sscr := t_sscr t |}
  | SEpc => put K_sepc | SCause => put K_scause | STval => put K_stval | STvec => put K_stvec
  | MEpc => put K_mepc | MCause => put K_mcause | MTval => put K_mtval | MTvec => put K_mtvec
  | Mie => put K_mie | Mideleg => put K_mideleg | Medeleg => put K_medeleg | Mstatus => put K_mstatus end.

(** Model only: no branch, no trap: on to the next instruction. *)
Definition advance (t : top) (u : StepSpec.hart) (size : Z) : top :=
  {| tu := at_pc u (wrap 64 (hpc u + size)); tp := begin_inst (tp t) (hpc u); t_mscr := t_mscr t; t_sscr := t_sscr t |}.
(** riscv_zicsr_instructions.cc:46-66 CheckCsrPermission (satp is not among the CSRs modelled), then the body of the
    instruction: [use c] does what follows the lookup of the CSR. *)
Definition with_csr (S : simulator) (t : top) (iw : Z) (names : list string) (i : nat) (use : csr -> option top) : option top :=
  match sys_src S names i with
  | None => None
  | Some s =>
      let n := sgn 32 (wrap 32 (src_value (user t) iw s)) in
      if h_priv (tp t) <? Z.land (Z.shiftr n 8) 3 then deliver t (user t) (HartSpec.illegal (hpc (tu t)))
      else match csr_no n with Some c => use c | None => None end
  end.
(** riscv_zicsr_instructions.cc:70-167 RVZiCsrrw, RVZiCsrrs, RVZiCsrrc: the operand is read, the old value goes to rd, then the CSR is updated. *)
Definition csr_rmw (S : simulator) (t : top) (iw : Z) (ir : irow) (op : Z -> csr_op) : option top :=
  with_csr S t iw (i_src ir) 1 (fun c =>
    match sys_src S (i_src ir) 0, get_dst S (i_dst ir) 0 with
    | Some s, Some d =>
        let x := wrap (s_xlen S) (src_value (user t) iw s) in
        match write_x (user t) iw d (read_csr t c) with
        | Some u => Some (advance (update_csr t c (op x)) u (i_size ir))
        | None => None end
    | _, _ => None end).

(** One system instruction. *)
Definition sys_exec (S : simulator) (t : top) (iw : Z) (ir : irow) : option top :=
  let u := user t in
  let pc := hpc u in
  let p := begin_inst (tp t) pc in
  match assoc sysfns (i_sem ir) with
  | Some FEcall =>    (* riscv_state.cc:585-613 *)
      if h_priv p =? 0 then deliver t u (exn 8 pc) else if h_priv p =? 1 then deliver t u (exn 9 pc)
      else if h_priv p =? 3 then deliver t u (exn 11 pc) else Some (advance t u (i_size ir))
  | Some FEbreak => deliver t u (exn 3 pc)    (* riscv_state.cc:615-624 *)
  | Some FMret => option_map (moved t u) (HartModel.mret p pc)
  | Some FSret => option_map (moved t u) (HartModel.sret p pc)
  | Some FWfi => Some (advance t u (i_size ir))    (* riscv_state.cc:626-637 *)
  | Some FCsrrw => csr_rmw S t iw ir CsrWrite
  | Some FCsrrs => csr_rmw S t iw ir CsrSetBits
  | Some FCsrrc => csr_rmw S t iw ir CsrClearBits
  | Some FCsrrwNr =>    (* riscv_zicsr_instructions.cc:169-193 *)
      with_csr S t iw (i_src ir) 1 (fun c =>
        match sys_src S (i_src ir) 0 with
        | Some s => Some (advance (update_csr t c (CsrWrite (wrap (s_xlen S) (src_value u iw s)))) u (i_size ir))
        | None => None end)
  | Some FCsrrNw =>    (* riscv_zicsr_instructions.cc:195-219 *)
      with_csr S t iw (i_src ir) 0 (fun c =>
        match get_dst S (i_dst ir) 0 with
        | Some d => match write_x u iw d (read_csr t c) with Some u' => Some (advance t u' (i_size ir)) | None => None end
        | None => None end)
  | None => None
  end.

(** ** The loop *)
(** The instruction object the decoder makes for opcode [o]; None: undefined behaviour or not modelled. *)
Definition run_opcode (S : simulator) (misa max : Z) (t : top) (iw : Z) (o : string) : option top :=
  match find (fun r => String.eqb (i_name r) o) sys_isa with
  | Some ir => sys_exec S t iw ir
  | None => match exec_opcode S 64 (Some misa) max (user t) iw o with Some out => finish t out | None => None end
  end.
(** The possible results of executing the word [iw] (StepModel.sim_word). *)
Definition run_word (S : simulator) (misa max : Z) (t : top) (iw : Z) (r : option top) : Prop :=
  (exists o, sim_decodes S iw o /\ r = run_opcode S misa max t iw o) \/
  ((forall o, ~ sim_decodes S iw o) /\ r = finish t (illegal_instruction (user t))).
(** riscv_top.cc:330-340: the instruction at pc; the decode cache also keeps the instruction objects that raise an
    address exception, whose effect does not depend on the word.  An address beyond the pc register that passes the
    check, which only an RV32 hart can reach, is not modelled. *)
Definition one_inst (S : simulator) (misa max : Z) (t : top) (c : cache) (r : option top) : Prop :=
  let pc := hpc (tu t) in
  match check_address misa max pc with
  | Some q => r = finish t (Raise q (user t))
  | None => if 2 ^ s_xlen S <=? pc then r = None else run_word S misa max t (cached_word c (tu t) pc) r
  end.
(** Interrupt lines driven by devices, and checks for interrupts the embedding program may request. *)
Definition line_op (o : hart_op) : bool :=
  match o with HLine i v => is_irq i && u64_ok v | HExtLine _ | HCheck => true | _ => false end.
(** riscv_top.cc:341-361: after the instruction, during which the devices did [ops], an available interrupt is taken,
    with the address of the next instruction as return address. *)
Definition boundary (t : top) (ops : list hart_op) : option top :=
  match hart_run (tp t) ops with
  | None => None
  | Some p =>
      match take_interrupt p (hpc (tu t)) with
      | None => None
      | Some p' => Some {| tu := at_pc (tu t) (next_of p' (hpc (tu t))); tp := p';
                           t_mscr := t_mscr t; t_sscr := t_sscr t |}
      end
  end.
(** riscv_top.cc:292-397 RiscVTop::Step, one instruction for each element of the list: what the devices do during it.
    Result None: an instruction is reached that is undefined behaviour or not modelled. *)
Inductive mach_run (S : simulator) (misa max : Z) : list (list hart_op) -> top -> cache -> option top -> Prop :=
  | mach_end t c : mach_run S misa max [] t c
      (Some {| tu := StepModel.set_pc (s_xlen S) (tu t) (hpc (tu t)); tp := tp t; t_mscr := t_mscr t; t_sscr := t_sscr t |})
  | mach_stuck ops evs t c : one_inst S misa max t c None -> mach_run S misa max (ops :: evs) t c None
  | mach_lost ops evs t c t1 : one_inst S misa max t c (Some t1) -> boundary t1 ops = None -> mach_run S misa max (ops :: evs) t c None
  | mach_step ops evs t c c' t1 t2 res : one_inst S misa max t c (Some t1) -> cache_after c (tu t) (hpc (tu t)) c' ->
      boundary t1 ops = Some t2 -> mach_run S misa max evs t2 c' res -> mach_run S misa max (ops :: evs) t c res.
