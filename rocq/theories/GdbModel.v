(** Model of riscv_gdb_debug_info.cc and riscv_gdb_debug_info.h (C96).  The XML text is represented by its <reg> elements;
    host_info_ is left out. *)
From Coq Require Import ZArith List String Ascii Bool.
From Verif Require Import GdbSpec.
Import ListNotations.
Local Open Scope string_scope.
Local Open Scope Z_scope.

(** riscv_gdb_debug_info.cc:27-39 EscapeString. *)
Fixpoint EscapeString (str : list ascii) : list ascii :=
  match str with
  | [] => []
  | c :: r => if Ascii.eqb c "$" || Ascii.eqb c "#" || Ascii.eqb c "*" || Ascii.eqb c "}"
              then "}"%char :: toggle c :: EscapeString r else c :: EscapeString r
  end.

(** riscv_gdb_debug_info.h:30-145, RiscVGdbRegisterEnum. *)
Definition kGprX0 : Z := 0.
(** riscv_gdb_debug_info.h:65. *)
Definition kGprPc : Z := 32.
(** riscv_gdb_debug_info.h:68. *)
Definition kFprFirst : Z := kGprPc + 1.
(** riscv_gdb_debug_info.h:102. *)
Definition kFprFcsr : Z := kFprFirst + 32.
(** riscv_gdb_debug_info.h:104. *)
Definition kVprFirst : Z := kFprFcsr + 1.
(** riscv_gdb_debug_info.h:138. *)
Definition kVprVstart : Z := kVprFirst + 32.

(** Model only: the names prefix0 ... prefix31 with consecutive numbers from [first]. *)
Definition numbered_names (prefix : string) (first : Z) : list (Z * string) :=
  map (fun i => (first + Z.of_nat i, prefix ++ numeral i)) (seq 0 32).
(** riscv_gdb_debug_info.cc:76-103, debug_register_map_. *)
Definition debug_register_map (t : target) : list (Z * string) :=
  ([(kGprPc, "pc")] ++ numbered_names "x" kGprX0 ++
   (if negb (fpr t =? 0) then numbered_names "f" kFprFirst ++ [(kFprFcsr, "fcsr")] else []) ++
   (if negb (vec t =? 0)
    then [(kVprVstart, "vstart"); (kVprVstart + 1, "vxsat"); (kVprVstart + 2, "vxrm"); (kVprVstart + 3, "vcsr"); (kVprVstart + 4, "vl");
          (kVprVstart + 5, "vtype"); (kVprVstart + 6, "vlenb")] else []))%list.
(** riscv_gdb_debug_info.h:157-159 GetFirstGpr. *)
Definition GetFirstGpr : Z := kGprX0.
(** riscv_gdb_debug_info.h:160-162. *)
Definition GetLastGpr : Z := kGprPc.
(** riscv_gdb_debug_info.h:163-165. *)
Definition GetPcRegister : Z := kGprPc.
(** riscv_gdb_debug_info.h:168-170. *)
Definition GetRegisterByteWidth (t : target) (register_number : Z) : Z := gpr t / 8.

(** Model only: one loop "for i < 32 ... regnum++" of the constructor. *)
Definition xml_bank (prefix : string) (bits regnum : Z) : list reg :=
  map (fun i => mk_reg (prefix ++ numeral i) bits (Some (regnum + Z.of_nat i))) (seq 0 32).
(** riscv_gdb_debug_info.cc:106-186, the <reg> elements of gdb_target_xml_; regnum goes on from feature to feature. *)
Definition gdb_target_xml (t : target) : list reg :=
  let regnum := 33 in
  let fp := if negb (fpr t =? 0) then (xml_bank "f" (fpr t) regnum ++ [mk_reg "fcsr" 32 (Some (regnum + 32))])%list else [] in
  let regnum := if negb (fpr t =? 0) then regnum + 33 else regnum in
  let v := if negb (vec t =? 0)
           then (xml_bank "v" (vec t) regnum ++
                 [mk_reg "vstart" 32 None; mk_reg "vxsat" 32 None; mk_reg "vxrm" 32 None; mk_reg "vcsr" 32 None; mk_reg "vl" 32 None;
                  mk_reg "vtype" 32 None; mk_reg "vlenb" 32 None])%list else [] in
  (xml_bank "x" (gpr t) 0 ++ [mk_reg "pc" (gpr t) (Some 32)] ++ fp ++ v)%list.

(** Model only: outcomes of Instance: undefined behaviour, a null pointer, an instance (identified by the widths it was
    constructed with; it never changes). *)
Inductive outcome := Undefined | Null | Info (t : target).
(** Model only: an int shifted left.  C++17 (.bazelrc:16-23): undefined if the result is not representable in unsigned
    int; otherwise converted to int, modulo 2^32. *)
Definition shift_left (x n : Z) : option Z := let r := x * 2 ^ n in if r <? 2 ^ 32 then Some ((r + 2 ^ 31) mod 2 ^ 32 - 2 ^ 31) else None.
(** riscv_gdb_debug_info.cc:57. *)
Definition key (t : target) : option Z :=
  match shift_left (fpr t) 16, shift_left (vec t) 24 with
  | Some f, Some v => Some (Z.lor (Z.lor (gpr t) f) v)
  | _, _ => None
  end.
(** riscv_gdb_debug_info.cc:47-66 Instance; [m] is the static instance_map. *)
Definition Instance (t : target) (m : list (Z * target)) : outcome * list (Z * target) :=
  if negb (gpr t =? 32) && negb (gpr t =? 64) then (Null, m)
  else if negb (fpr t =? 0) && negb (fpr t =? 32) && negb (fpr t =? 64) then (Null, m)
  else if negb (vec t =? 0) && negb (vec t =? 128) && negb (vec t =? 256) && negb (vec t =? 512) && negb (vec t =? 1024) then (Null, m)
  else match key t with
       | None => (Undefined, m)
       | Some k => match find (fun e => fst e =? k) m with
                   | Some (_, i) => (Info i, m)
                   | None => (Info t, (k, t) :: m)
                   end
       end.
(** Model only: the map after a history of calls, which starts empty. *)
Definition calls (l : list target) : list (Z * target) := fold_left (fun m t => snd (Instance t m)) l [].
