(** Specification of the target description for GDB (C96), after the GDB manual (target description format; remote
    protocol, binary data).  Does not mention the model. *)
From Coq Require Import ZArith List String Ascii Bool.
Import ListNotations.
Local Open Scope string_scope.
Local Open Scope Z_scope.

(** A <reg> element: name, bitsize, and regnum if present. *)
Record reg := mk_reg { r_name : string; r_bits : Z; r_num : option Z }.
(** GDB's numbers: regnum, or one more than the number of the register before; [n] is the number the next register gets. *)
Fixpoint numbered (n : Z) (l : list reg) : list (Z * reg) :=
  match l with
  | [] => []
  | r :: l => let k := match r_num r with Some k => k | None => n end in (k, r) :: numbered (k + 1) l
  end.

(** The widths a target can have: integer registers; floating-point registers or none; vector registers or none. *)
Record target := mk_target { gpr : Z; fpr : Z; vec : Z }.
Definition possible (t : target) : bool :=
  existsb (Z.eqb (gpr t)) [32; 64] && existsb (Z.eqb (fpr t)) [0; 32; 64] && existsb (Z.eqb (vec t)) [0; 128; 256; 512; 1024].

(** Decimal numerals of two digits. *)
Definition digit (n : nat) : string := String (ascii_of_nat (48 + n)) "".
Definition numeral (n : nat) : string := if (n <? 10)%nat then digit n else digit (n / 10) ++ digit (n mod 10).
Definition bank (prefix : string) (bits : Z) : list (string * Z) := map (fun i => (prefix ++ numeral i, bits)) (seq 0 32).
(** The registers of a target with their widths, in GDB's order; the control registers of the vector unit, described with
    32 bits. *)
Definition vector_csrs : list string := ["vstart"; "vxsat"; "vxrm"; "vcsr"; "vl"; "vtype"; "vlenb"].
Definition registers (t : target) : list (string * Z) :=
  (bank "x" (gpr t) ++ [("pc", gpr t)] ++
   (if fpr t =? 0 then [] else bank "f" (fpr t) ++ [("fcsr", 32)]) ++
   (if vec t =? 0 then [] else bank "v" (vec t) ++ map (fun n => (n, 32)) vector_csrs))%list.

(** Binary data in packets: '}' makes the next character stand for itself xor 0x20; '#', '$', '*' must not appear. *)
Definition toggle (c : ascii) : ascii := ascii_of_nat (Nat.lxor (nat_of_ascii c) 32).
Fixpoint unescape (s : list ascii) : list ascii :=
  match s with
  | [] => []
  | c :: r => if Ascii.eqb c "}" then match r with d :: r => toggle d :: unescape r | [] => [] end else c :: unescape r
  end.
Definition reserved (c : ascii) : bool := existsb (Ascii.eqb c) ["#"; "$"; "*"]%char.
