(** Model of riscv_zc_instructions.cc (Zcmp, Zcmt) with the operand lists of
    riscv_zc_getters.h and riscv_zc.isa. *)
From Coq Require Import ZArith Bool List.
From Verif Require Import Bits Memory AccessSpec AccessModel ZcmpSpec.
Import ListNotations.
Local Open Scope Z_scope.

(** riscv_zc_instructions.cc:35-37 (RV32), 176-178 (RV64) kStackAdjBase. *)
Definition stack_adj_base (w rlist : Z) : Z :=
  nth (Z.to_nat rlist)
    (if w =? 32 then [0; 0; 0; 0; 16; 16; 16; 16; 32; 32; 32; 32; 48; 48; 48; 64]
     else [0; 0; 0; 0; 16; 16; 32; 32; 48; 48; 64; 64; 80; 80; 96; 112]) 0.
(** riscv_zc_getters.h:369-404 (sources), 408-459 (destinations): the registers of [rlist]. *)
Definition rlist_operands (rlist : Z) : list Z :=
  if rlist <? 4 then []
  else 1 ::
  (if rlist =? 4 then [] else 8 ::
  (if rlist =? 5 then [] else 9 ::
  (if rlist =? 6 then [] else 18 ::
  (if rlist =? 7 then [] else 19 ::
  (if rlist =? 8 then [] else 20 ::
  (if rlist =? 9 then [] else 21 ::
  (if rlist =? 10 then [] else 22 ::
  (if rlist =? 11 then [] else 23 ::
  (if rlist =? 12 then [] else 24 ::
  (if rlist =? 13 then [] else 25 ::
  (if rlist =? 14 then [] else 26 :: [27]))))))))))).

(** riscv_instruction_helpers.h:318-325 RiscVWriteReg: immediate update of a register. *)
Definition write_reg (w : Z) (x : regfile) (r v : Z) : regfile := fun k => if k =? r then wrap w v else x k.
(** Contents of a DataBuffer of [UIntReg] elements as one little-endian number (mpact-sim). *)
Definition db_value (w : Z) (vals : list Z) : Z := fold_right (fun v acc => wrap w v + 2 ^ w * acc) 0 vals.
(** Word i of the data buffer (DataBuffer::Get<T>(i)). *)
Definition db_word (w v : Z) (i : nat) : Z := wrap w (v / 2 ^ (w * Z.of_nat i)).

(** Model only: integer registers and memory. *)
Record zst := { z_x : regfile; z_m : mem }.

(** riscv_zc_instructions.cc:46-68 (RV32), 187-209 (RV64) RiscVZCmpPush.  [regs] are the
    sources 3..; source 0 and destination 0 are x2.  The address arithmetic is in uint64_t
    because of sizeof.  The trap request, if any, is returned; execution continues after it. *)
Definition push (w max pc : Z) (regs : list Z) (spimm6 rlist : Z) (s : zst) : zst * option trap_req :=
  let n := Z.of_nat (length regs) in
  let sp := z_x s 2 in
  let vals := map (z_x s) regs in
  let r := store_memory max (z_m s) pc (wrap 64 (sp - xbytes w * n)) (Z.to_nat (xbytes w * n)) (db_value w vals) in
  let m' := match r with inl m => m | inr _ => z_m s end in
  let adj := wrap w (spimm6 + stack_adj_base w rlist) in
  ({| z_x := write_reg w (z_x s) 2 (sp - adj); z_m := m' |},
   match r with inl _ => None | inr t => Some t end).

(** riscv_zc_instructions.cc:84-92 the loop over the popped values; destination i of
    [dests] receives word i. *)
Fixpoint write_list (w : Z) (x : regfile) (dests : list Z) (v : Z) (i : nat) : regfile :=
  match dests with
  | [] => x
  | r :: l => write_list w (write_reg w x r (db_word w v i)) l v (S i)
  end.
(** riscv_zc_instructions.cc:73-92 (RV32), 214-233 (RV64) RiscVZCmpPopHelper.  [dests] is the
    whole destination list; the first [size] receive the values, destination [size] the
    stack pointer.  [garbage]: contents of the fresh buffer when the load faults. *)
Definition pop_helper (w max pc garbage : Z) (dests : list Z) (size : nat) (spimm6 rlist : Z) (s : zst)
    : zst * option trap_req :=
  let adj := wrap w (spimm6 + stack_adj_base w rlist) in
  let sp := z_x s 2 in
  let n := Z.of_nat size in
  let r := load_memory max (z_m s) pc (wrap 64 (wrap w (sp + adj) - xbytes w * n)) (Z.to_nat (xbytes w * n)) in
  let v := match r with inl v => v | inr _ => garbage end in
  let x1 := write_list w (z_x s) (firstn size dests) v 0 in
  ({| z_x := write_reg w x1 (nth size dests 0) (sp + adj); z_m := z_m s |},
   match r with inl _ => None | inr t => Some t end).

(** Destination lists of cm.pop: riscv_zc.isa:367 (riscv_zcmp64, also the list the unit test
    builds) and riscv_zc.isa:334 (riscv_zcmp32, used by rvm23.isa). *)
Definition dests64 (rlist : Z) : list Z := rlist_operands rlist ++ [2].
(** riscv_zc.isa:367. *)
Definition dests32 (rlist : Z) : list Z := 2 :: rlist_operands rlist.

(** riscv_zc_instructions.cc:96-100 / 237-241 RiscVZCmpPop. *)
Definition pop (w max pc garbage : Z) (dests : list Z) (spimm6 rlist : Z) (s : zst) : zst * option trap_req :=
  pop_helper w max pc garbage dests (length dests - 1) spimm6 rlist s.
(** riscv_zc_instructions.cc:102-112 / 243-253 RiscVZCmpPopRet with the operands of
    riscv_zc.isa:371; the third component is the jump target.  Source 3 is x1, read after the
    registers were written. *)
Definition popret (w max pc garbage : Z) (spimm6 rlist : Z) (s : zst) : zst * option trap_req * Z :=
  let '(s1, t) := pop_helper w max pc garbage (dests64 rlist) (length (dests64 rlist) - 1) spimm6 rlist s in
  (s1, t, z_x s1 1).
(** riscv_zc_instructions.cc:114-126 / 255-267 RiscVZCmpPopRetz, riscv_zc.isa:375. *)
Definition popretz (w max pc garbage : Z) (spimm6 rlist : Z) (s : zst) : zst * option trap_req * Z :=
  let '(s1, t) := pop_helper w max pc garbage (dests64 rlist) (length (dests64 rlist) - 1) spimm6 rlist s in
  let s2 := {| z_x := write_reg w (z_x s1) 10 0; z_m := z_m s1 |} in
  (s2, t, z_x s2 1).
(** riscv_zc_instructions.cc:128-133 / 269-274 RiscVZCmpMvTwoRegs. *)
Definition mv_two (w : Z) (s1 s2 d1 d2 : Z) (x : regfile) : regfile :=
  let x1 := write_reg w x d1 (x s1) in write_reg w x1 d2 (x1 s2).
(** riscv_zc_getters.h:285 kSRegToXRegMap. *)
Definition sreg_map (r : Z) : Z := nth (Z.to_nat r) [8; 9; 18; 19; 20; 21; 22; 23] 0.

(** riscv_jvt.h:33-37 Write. *)
Definition jvt_write (w v : Z) : Z := wrap w (Z.land v (wnot 64 0x3f)).
(** riscv_zc_instructions.cc:138-160 / 279-301 RiscVZCmtJtHelper: new pc (None: unchanged) and
    trap request.  The load of the table entry continues after a fault with [garbage]. *)
Definition jt (w max pc garbage jvt index : Z) (m : mem) : option Z * option trap_req :=
  if Z.land jvt 0x3f =? 0 then
    let entry := wrap w (Z.land jvt (wnot 64 0x3f) + index * xbytes w) in
    match load_memory max m pc entry (Z.to_nat (xbytes w)) with
    | inl v => (Some v, None)
    | inr t => (Some (wrap w garbage), Some t)
    end
  else (None, Some {| t_tval := 0; t_code := 2; t_epc := pc |}).
(** riscv_zc_instructions.cc:164-168 / 305-309 RiscVZCmtJalt: link written in any case. *)
Definition jalt (w max pc size garbage jvt index : Z) (m : mem) : option Z * option Z * option trap_req :=
  let '(p, t) := jt w max pc garbage jvt index m in (p, Some (wrap w (pc + size)), t).
