(** Specification for C18, C19, C22, C23, C59: CSR instructions, the physical address
    limit, control transfers, scalar loads and stores.  Does not mention the model. *)
From Coq Require Import ZArith Bool List.
From Verif Require Import Bits CsrSpec Memory.
Import ListNotations.
Local Open Scope Z_scope.

(** A synchronous exception request: trap value, cause, address of the instruction. *)
Record trap_req := { t_tval : Z; t_code : Z; t_epc : Z }.
Definition cause_misaligned_fetch := 0.
Definition cause_illegal := 2.
Definition cause_load_fault := 5.
Definition cause_store_fault := 7.

(** ** C18: CSR instructions over an arbitrary CSR file. *)
Record csr_file (St : Type) := {
  cf_read : St -> Z -> option Z;         (* None: no such CSR *)
  cf_apply : St -> Z -> csr_op -> St }.
Arguments cf_read {St}. Arguments cf_apply {St}.
Inductive csr_instr := Csrrw | Csrrs | Csrrc | CsrrwNr | CsrrNw.
(** What the instruction does to the CSR, given the operand [v]. *)
Definition csr_effect (i : csr_instr) (v : Z) : option csr_op :=
  match i with
  | Csrrw | CsrrwNr => Some (CsrWrite v)
  | Csrrs => Some (CsrSetBits v)
  | Csrrc => Some (CsrClearBits v)
  | CsrrNw => None
  end.
Definition reads_csr (i : csr_instr) : bool := match i with CsrrwNr => false | _ => true end.
(** Lowest privilege allowed to touch CSR [n]: bits 9:8 of the number. *)
Definition csr_min_priv (n : Z) : Z := n / 256 mod 4.
(** CSR numbers whose bits 11:10 are both set are read-only. *)
Definition csr_read_only (n : Z) : bool := n / 1024 mod 4 =? 3.
Definition satp_number := 0x180.
(** Everything a CSR instruction can change. *)
Record csr_result (St : Type) := { x_st : St; x_rd : option Z; x_trap : option trap_req }.
Arguments x_st {St}. Arguments x_rd {St}. Arguments x_trap {St}.
Definition illegal (pc : Z) : trap_req := {| t_tval := 0; t_code := cause_illegal; t_epc := pc |}.

(** ** C19: accesses and the limit. *)
(** Bytes an access of [n] bytes at [a] touches. *)
Definition touches (a : Z) (n : nat) (x : Z) : Prop := a <= x < a + Z.of_nat n.
Definition load_fault (a pc : Z) : trap_req := {| t_tval := a; t_code := cause_load_fault; t_epc := pc |}.
Definition store_fault (a pc : Z) : trap_req := {| t_tval := a; t_code := cause_store_fault; t_epc := pc |}.
(** [a] is the first address of the list above the limit. *)
Definition first_above (limit : Z) (l : list Z) (a : Z) : Prop :=
  exists l1 l2, l = l1 ++ a :: l2 /\ limit < a /\ Forall (fun x => x <= limit) l1.

(** ** C22: control transfer. *)
Inductive branch := Beq | Bne | Blt | Bltu | Bge | Bgeu.
Definition taken (w : Z) (c : branch) (a b : Z) : bool :=
  match c with
  | Beq => a =? b | Bne => negb (a =? b)
  | Blt => sgn w a <? sgn w b | Bge => sgn w b <=? sgn w a
  | Bltu => a <? b | Bgeu => b <=? a
  end.
(** Effect of a control-transfer instruction: new pc (None: fall through), value of the
    link register (None: not written), exception. *)
Record ctl := { c_pc : option Z; c_link : option Z; c_trap : option trap_req }.
Definition fall_through : ctl := {| c_pc := None; c_link := None; c_trap := None |}.
Definition even_part (x : Z) : Z := x - x mod 2.
(** Instruction addresses are 2-byte aligned with the C extension, else 4-byte aligned. *)
Definition misaligned (has_c : bool) (target : Z) : bool := negb has_c && negb (target mod 4 =? 0).
Definition jump_spec (has_c : bool) (target link pc : Z) : ctl :=
  if misaligned has_c target
  then {| c_pc := None; c_link := None;
          c_trap := Some {| t_tval := target; t_code := cause_misaligned_fetch; t_epc := pc |} |}
  else {| c_pc := Some target; c_link := Some link; c_trap := None |}.

(** ** C23: loads and stores.  Width in bytes; signed or not. *)
Inductive load_kind := Lb | Lh | Lw | Ld | Lbu | Lhu | Lwu.
Inductive store_kind := Sb | Sh | Sw | Sd.
Definition load_bytes (k : load_kind) : nat :=
  match k with Lb | Lbu => 1 | Lh | Lhu => 2 | Lw | Lwu => 4 | Ld => 8 end.
Definition load_signed (k : load_kind) : bool := match k with Lb | Lh | Lw | Ld => true | _ => false end.
Definition store_bytes (k : store_kind) : nat := match k with Sb => 1 | Sh => 2 | Sw => 4 | Sd => 8 end.
Definition load_exists (w : Z) (k : load_kind) : Prop := w = 64 \/ (k <> Ld /\ k <> Lwu).
Definition store_exists (w : Z) (k : store_kind) : Prop := w = 64 \/ k <> Sd.
(** The register value made of the bytes at [a]: bit i comes from byte a + i/8; the rest
    repeats the top bit or is zero. *)
Definition loaded (w : Z) (k : load_kind) (m : mem) (a r : Z) : Prop :=
  0 <= r < 2 ^ w /\
  forall i, 0 <= i < w ->
    let top := 8 * Z.of_nat (load_bytes k) - 1 in
    Z.testbit r i =
    if i <=? top then Z.testbit (m (a + i / 8)) (i mod 8)
    else load_signed k && Z.testbit (m (a + top / 8)) (top mod 8).
(** Low [n] bytes of [v] as the register value a load of kind [k] gives. *)
Definition extended (w : Z) (k : load_kind) (v : Z) : Z :=
  let bits := 8 * Z.of_nat (load_bytes k) in
  if load_signed k then sgn bits v mod 2 ^ w else v mod 2 ^ bits.

(** A sequence of CSR instructions, each executed at its own privilege. *)
Record csr_req := { q_instr : csr_instr; q_priv : Z; q_pc : Z; q_num : Z; q_val : Z; q_tvm : bool }.
Definition permitted (priv n : Z) (tvm : bool) : bool :=
  (csr_min_priv n <=? priv) && negb ((priv =? 1) && (n =? satp_number) && tvm).
(** The accesses of a sequence that reach CSR [n]. *)
Fixpoint effects_on (n : Z) (l : list csr_req) : list csr_op :=
  match l with
  | [] => []
  | q :: l' =>
      match csr_effect (q_instr q) (q_val q) with
      | Some o => if (q_num q =? n) && permitted (q_priv q) n (q_tvm q) then o :: effects_on n l' else effects_on n l'
      | None => effects_on n l'
      end
  end.
(** Byte [x] after a vector store: written by the last active element that covers it. *)
Definition element := (Z * bool * Z)%type.   (* address, active, value *)
Definition covers (n : nat) (x : Z) (e : element) : bool :=
  let '(a, act, _) := e in act && (a <=? x) && (x <? a + Z.of_nat n).
Definition byte_after (n : nat) (m : mem) (els : list element) (x : Z) : Z :=
  match find (covers n x) (rev els) with
  | Some (a, _, v) => v / 2 ^ (8 * (x - a)) mod 256
  | None => m x
  end.
