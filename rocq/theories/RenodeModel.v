(** Model of the register access for Renode (C99): riscv_debug_info.h:28-137, riscv_debug_info.cc:24-221,
    riscv_renode_register_info.cc:28-66, riscv_renode.cc:341-384. *)
From Coq Require Import ZArith List String Ascii Bool.
From Verif Require Import CsrTabSpec.
Import ListNotations.
Local Open Scope string_scope.
Local Open Scope Z_scope.

(** riscv_debug_info.h:31, DebugRegisterEnum. *)
Definition kPc : Z := 0x07b1.
(** riscv_debug_info.h:34. *)
Definition kX0 : Z := 0x1000.
(** riscv_debug_info.h:68. *)
Definition kF0 : Z := 0x1020.
(** riscv_debug_info.h:102; the value is the one in the code. *)
Definition kV0 : Z := 0x1020.
(** Model only: 32 consecutive registers. *)
Definition bank (prefix : string) (base : Z) : list (Z * string) := map (fun i => (base + Z.of_nat i, (prefix ++ numeral i)%string)) (seq 0 32).
(** riscv_debug_info.cc:126-222, debug_register_map_; constructing a flat_hash_map from a list keeps the first of two entries
    with the same key (external library), so that find is find of the first. *)
Definition debug_register_map : list (Z * string) := ([(kPc, "pc")] ++ bank "x" kX0 ++ bank "f" kF0 ++ bank "v" kV0)%list.
(** absl::flat_hash_map::find. *)
Definition map_find (id : Z) : option string := option_map snd (find (fun e => fst e =? id) debug_register_map).

(** Model only: the register named in an access, or an error. *)
Inductive outcome := Accesses (name : string) | NotFoundError.
(** riscv_renode.cc:341-361, ReadRegister and WriteRegister: both find the name and pass it on (to ReadRegister or
    WriteRegister of the top, not modelled here). *)
Definition RegisterAccess (reg_id : Z) : outcome := match map_find reg_id with Some s => Accesses s | None => NotFoundError end.

(** RenodeCpuRegister (external library): index, width, is_general, is_read_only, in this order (riscv_renode_register_info.cc:32). *)
Record RenodeCpuRegister := mk_info { index : Z; width : Z; is_general : bool; is_read_only : bool }.
(** riscv_renode_register_info.cc:28-66. *)
Definition renode_register_info : list RenodeCpuRegister :=
  ([mk_info kPc 32 true false; mk_info kX0 32 true true] ++ map (fun i => mk_info (kX0 + Z.of_nat i) 32 true false) (seq 1 31) ++
   map (fun i => mk_info (kF0 + Z.of_nat i) 32 false false) (seq 0 32))%list.
(** strncpy(name, s, max_len) (C library): the characters of s, at most max_len, and NULs up to max_len. *)
Definition strncpy (buffer : list ascii) (s : string) (max_len : nat) : list ascii :=
  (firstn max_len (list_ascii_of_string s ++ repeat Ascii.zero max_len) ++ skipn max_len buffer)%list.
(** riscv_renode.cc:367-384, GetRenodeRegisterInfo; None for OutOfRangeError.  A negative max_len is left out. *)
Definition GetRenodeRegisterInfo (i : Z) (max_len : nat) (name : list ascii) : option (RenodeCpuRegister * list ascii) :=
  if (i <? 0) || (Z.of_nat (List.length renode_register_info) <=? i) then None
  else match nth_error renode_register_info (Z.to_nat i) with
       | None => None
       | Some info => Some (info, match map_find (index info) with None => (Ascii.zero :: tl name) | Some s => strncpy name s max_len end)
       end.
