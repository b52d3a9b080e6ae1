(** Specification of the CSR numbers (C97): the tables of chapter 2 of the privileged architecture and of the F, V, Zcmt
    extensions, for the registers below; ustatus and sideleg after earlier versions.  Does not mention the model. *)
From Coq Require Import ZArith List String Ascii Bool.
Import ListNotations.
Local Open Scope string_scope.
Local Open Scope Z_scope.

(** Decimal numerals of at most two digits. *)
Definition digit (n : nat) : string := String (ascii_of_nat (48 + n)) "".
Definition numeral (n : nat) : string := if (n <? 10)%nat then digit n else digit (n / 10) ++ digit (n mod 10).
(** The registers prefix<first> ... with consecutive numbers; [base] is the number of a register with index 0. *)
Definition family (prefix suffix : string) (base : Z) (first count : nat) : list (string * Z) :=
  map (fun i => (prefix ++ numeral i ++ suffix, base + Z.of_nat i)) (seq first count).

(** Names and numbers; [w] is XLEN.  The high halves of counters exist for XLEN 32 only. *)
Definition high_halves : list (string * Z) :=
  ([("cycleh", 0xc80); ("timeh", 0xc81); ("instreth", 0xc82); ("mcycleh", 0xb80); ("minstreth", 0xb82)] ++
   family "hpmcounter" "h" 0xc80 3 29 ++ family "mhpmcounter" "h" 0xb80 3 29)%list.
Definition prescribed (w : Z) : list (string * Z) :=
  ([("fflags", 0x001); ("frm", 0x002); ("fcsr", 0x003); ("vstart", 0x008); ("vxsat", 0x009); ("vxrm", 0x00a); ("vcsr", 0x00f); ("jvt", 0x017);
    ("cycle", 0xc00); ("time", 0xc01); ("instret", 0xc02); ("vl", 0xc20); ("vtype", 0xc21); ("vlenb", 0xc22);
    ("ustatus", 0x000); ("sideleg", 0x103);
    ("sstatus", 0x100); ("sie", 0x104); ("stvec", 0x105); ("scounteren", 0x106); ("senvcfg", 0x10a);
    ("sscratch", 0x140); ("sepc", 0x141); ("scause", 0x142); ("stval", 0x143); ("sip", 0x144); ("satp", 0x180); ("henvcfg", 0x60a);
    ("mvendorid", 0xf11); ("marchid", 0xf12); ("mimpid", 0xf13); ("mhartid", 0xf14);
    ("mstatus", 0x300); ("misa", 0x301); ("medeleg", 0x302); ("mideleg", 0x303); ("mie", 0x304); ("mtvec", 0x305); ("mcounteren", 0x306);
    ("menvcfg", 0x30a); ("mscratch", 0x340); ("mepc", 0x341); ("mcause", 0x342); ("mtval", 0x343); ("mip", 0x344);
    ("mcycle", 0xb00); ("minstret", 0xb02)] ++
   family "hpmcounter" "" 0xc00 3 29 ++ family "mhpmcounter" "" 0xb00 3 29 ++ family "pmpaddr" "" 0x3b0 0 16 ++
   [("pmpcfg0", 0x3a0); ("pmpcfg2", 0x3a2)] ++ (if w =? 32 then [("pmpcfg1", 0x3a1); ("pmpcfg3", 0x3a3)] ++ high_halves else []))%list.

(** What a counter register is: a counter of its own; the high half of the counter with the number given; a view of memory that
    belongs to no counter. *)
Inductive refers := Itself | HighOf (low : Z) | Outside.

(** Required of a machine with S and U mode, and not to be left out. *)
Definition required : list string := ["mvendorid"; "marchid"; "mimpid"; "mhartid"; "mcounteren"; "scounteren"; "satp"; "mstatus"; "misa"; "mtvec"].
(** The number of a register. *)
Definition number_of (w : Z) (s : string) : option Z := option_map snd (find (fun e => String.eqb (fst e) s) (prescribed w)).
(** Only for floating point; only for vectors. *)
Definition fp_registers : list string := ["fflags"; "frm"; "fcsr"].
Definition vector_registers : list string := ["vstart"; "vxsat"; "vxrm"; "vcsr"; "vl"; "vtype"; "vlenb"].
(** Bits 11:10 of the number: 3 for registers that cannot be written. *)
Definition read_only (n : Z) : bool := Z.shiftr n 10 =? 3.
