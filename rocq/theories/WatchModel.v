(** Model of RiscVTestMemWatcher (C98): riscv_test_mem_watcher.cc:32-104, riscv_test_mem_watcher.h:38-60. *)
From Coq Require Import ZArith List String Ascii Bool.
From Verif Require Import WatchSpec.
Import ListNotations.
Local Open Scope string_scope.
Local Open Scope Z_scope.

(** riscv_test_mem_watcher.h:58-59: trace_str_, and the calls that memory_ has received. *)
Record watcher := mk_watcher { trace_str : text; received : list call }.
(** absl::Hex: digits 0 to 9, a to f (external library). *)
Definition hex_digit (d : Z) : ascii := ascii_of_nat (Z.to_nat (if d <? 10 then 48 + d else 87 + d)).
(** absl::Hex(value, kZeroPad<n>) of a value below 16^n (external library); the types of the values ensure that bound. *)
Fixpoint Hex (n : nat) (value : Z) : text := match n with O => [] | S k => (Hex k (value / 16) ++ [hex_digit (value mod 16)])%list end.
(** riscv_test_mem_watcher.cc:35, 45-46, 52, 80-81: " mem 0x" and the address. *)
Definition StrAddress (address : Z) : text := (list_ascii_of_string " mem 0x" ++ Hex 16 address)%list.
(** riscv_test_mem_watcher.cc:53-72 and 82-101, the switch; db->Get<T>(0) are the first bytes of the buffer. *)
Definition StrValue (size : nat) (bytes : list Z) : text :=
  match size with
  | 1%nat => (list_ascii_of_string " 0x" ++ Hex 2 (le_value (firstn 1 bytes)))%list
  | 2%nat => (list_ascii_of_string " 0x" ++ Hex 4 (le_value (firstn 2 bytes)))%list
  | 4%nat => (list_ascii_of_string " 0x" ++ Hex 8 (le_value (firstn 4 bytes)))%list
  | 8%nat => (list_ascii_of_string " 0x" ++ Hex 16 (le_value (firstn 8 bytes)))%list
  | _ => []
  end.
(** What each call appends: riscv_test_mem_watcher.cc:32-49 (Load), 51-74 (Store), 76-104 (vector Store, with Get<T>(0) for
    every element). *)
Definition appended (c : call) : text :=
  match c with
  | LoadOne a _ => StrAddress a
  | LoadMany l _ _ => flat_map StrAddress l
  | StoreOne a b => (StrAddress a ++ StrValue (List.length b) b)%list
  | StoreMany l _ n b => flat_map (fun a => (StrAddress a ++ StrValue n b)%list) l
  | Clear => []
  end.
(** riscv_test_mem_watcher.cc:32-104 and clear_trace_str (riscv_test_mem_watcher.h:55): append, then pass the call on. *)
Definition watch_step (w : watcher) (c : call) : watcher :=
  match c with
  | Clear => mk_watcher [] (received w)
  | _ => mk_watcher (trace_str w ++ appended c)%list (received w ++ [c])%list
  end.
(** Model only: a sequence of calls on a new watcher. *)
Definition watch (l : list call) : watcher := fold_left watch_step l (mk_watcher [] []).
