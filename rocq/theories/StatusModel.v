(** Model of /repo/riscv/riscv_xstatus.{h,cc} (mstatus, sstatus, ustatus). *)
From Coq Require Import ZArith Bool List.
From Verif Require Import Bits CsrSpec StatusSpec.
Import ListNotations.
Local Open Scope Z_scope.

(** riscv_xstatus.h:37-38, 150-151, 207-208. *)
Definition ms_read_mask : Z := 0x8000000f007ff9bb.
(** riscv_xstatus.h:37-38, 150-151, 207-208. *)
Definition ms_write_mask : Z := 0x007ff9bb.
(** riscv_xstatus.h:37-38, 150-151, 207-208. *)
Definition ss_read_mask : Z := 0x80000003000de133.
(** riscv_xstatus.h:37-38, 150-151, 207-208. *)
Definition ss_write_mask : Z := 0x000de133.
(** riscv_xstatus.h:37-38, 150-151, 207-208. *)
Definition us_write_mask : Z := 0x11.

(** riscv_xstatus.cc:31-40 StretchMStatus32 / CompressMStatus64. *)
Definition stretch32 (v : Z) : Z :=
  Z.lor (wrap 64 (Z.shiftl (Z.land v 0xc0000000) 32)) (Z.land v 0x03ffffff).
(** riscv_xstatus.cc:31-40. *)
Definition compress64 (v : Z) : Z :=
  wrap 32 (Z.lor (Z.land (Z.shiftr v 32) 0xc0000000) (Z.land v 0x3fffffff)).

(** riscv_xstatus.cc:60, 70-71 *)
Definition set_mask_from_32 : Z := 0xfffffff0ffffffff.
(** riscv_xstatus.cc:60, 70-71. *)
Definition ms_write_mask_32 : Z := compress64 ms_write_mask.
(** riscv_xstatus.cc:60, 70-71. *)
Definition ms_read_mask_32 : Z := compress64 ms_read_mask.
(** riscv_xstatus.cc:60, 70-71. *)
Definition ss_write_mask_32 : Z := compress64 ss_write_mask.

(** riscv_xstatus.h:36,136-141: value_ (of the base class), buffer_, buffer_mask_.
    misa_ is represented by the boolean [has_s] passed to the setter. *)
Record mstatus := { ms_value : Z; ms_buf : Z; ms_bufmask : Z }.

(** riscv_xstatus.h:122-126 GetterHelper (the getters return int; all masks are
    at most two bits so no narrowing is visible). *)
Definition getter (shift mask : Z) (s : mstatus) : Z := Z.land (Z.shiftr (ms_value s) shift) mask.
(** riscv_xstatus.h:128-132 SetterHelper. *)
Definition setter (shift mask v : Z) (s : mstatus) : mstatus :=
  {| ms_value := ms_value s;
     ms_buf := Z.lor (Z.land (ms_buf s) (wnot 64 (Z.shiftl mask shift))) (Z.shiftl (Z.land v mask) shift);
     ms_bufmask := Z.lor (ms_bufmask s) (Z.shiftl mask shift) |}.

(** riscv_xstatus.h:62-93 (getters) and 98-113 (setters): template arguments. *)
Definition code_shift (f : sfield) : Z :=
  match f with
  | F_TSR => 22 | F_TW => 21 | F_TVM => 20 | F_MXR => 19 | F_SUM => 18 | F_MPRV => 17
  | F_XS => 15 | F_FS => 13 | F_MPP => 11 | F_SPP => 8 | F_MPIE => 7 | F_SPIE => 5
  | F_UPIE => 4 | F_MIE => 3 | F_SIE => 1 | F_UIE => 0
  end.
(** riscv_xstatus.h:62-93. *)
Definition code_mask (f : sfield) : Z :=
  match f with F_XS | F_FS | F_MPP => 3 | _ => 1 end.

(** riscv_xstatus.h:62-93. *)
Definition ms_get (f : sfield) (s : mstatus) : Z := getter (code_shift f) (code_mask f) s.
(** Read-only getters riscv_xstatus.h:56-60. *)
Definition ms_sd (s : mstatus) : bool :=
  negb (getter 31 1 s =? 0) || negb (getter 63 1 s =? 0).
(** riscv_xstatus.h:56-60. *)
Definition ms_sxl (s : mstatus) : Z := getter 34 3 s.
(** riscv_xstatus.h:56-60. *)
Definition ms_uxl (s : mstatus) : Z := getter 32 3 s.

(** riscv_xstatus.cc:113-119 set_mpp; RiscVMIsa::HasUserMode is constantly true
    (riscv_misa.cc:75), so its test never returns early. *)
Definition ms_stage (has_s : bool) (f : sfield) (v : Z) (s : mstatus) : mstatus :=
  match f with
  | F_MPP => if (v =? 1) && negb has_s then s else setter 11 3 v s
  | _ => setter (code_shift f) (code_mask f) v s
  end.

(** riscv_xstatus.cc:105-111 Set(uint64_t).  The boolean tells whether
    CheckForInterrupt is called; its effect is modelled in HartModel.v. *)
Definition ms_set64 (v : Z) (s : mstatus) : mstatus * bool :=
  ({| ms_value := wrap 64 v; ms_buf := ms_buf s; ms_bufmask := ms_bufmask s |},
   negb (Z.land v 0xf =? 0)).

(** riscv_xstatus.cc:98-103 Set(uint32_t). *)
Definition ms_set32 (v : Z) (s : mstatus) : mstatus * bool :=
  ms_set64 (Z.lor (Z.land (stretch32 v) set_mask_from_32)
                  (Z.land (ms_value s) (wnot 64 set_mask_from_32))) s.

(** riscv_csr.h:454-457 Write(uint64_t), inherited. *)
Definition ms_write64 (v : Z) (s : mstatus) : mstatus * bool :=
  ms_set64 (Z.lor (Z.land v ms_write_mask) (Z.land (ms_value s) (wnot 64 ms_write_mask))) s.

(** riscv_xstatus.h:114-119 Submit. *)
Definition ms_submit (s : mstatus) : mstatus * bool :=
  let (s1, chk) := ms_write64 (Z.lor (Z.land (ms_value s) (wnot 64 (ms_bufmask s))) (ms_buf s)) s in
  ({| ms_value := ms_value s1; ms_buf := 0; ms_bufmask := 0 |}, chk).

(** riscv_xstatus.cc:75-78 AsUint32 / riscv_csr.h:447 AsUint64. *)
Definition ms_as_uint32 (s : mstatus) : Z := Z.land (compress64 (ms_value s)) ms_read_mask_32.
(** riscv_xstatus.cc:75-78. *)
Definition ms_as_uint64 (s : mstatus) : Z := Z.land (ms_value s) ms_read_mask.

(** riscv_xstatus.cc:80-91 (32-bit Write/SetBits/ClearBits), riscv_csr.h:454-463 (64-bit). *)
Definition ms_word (w : Z) (o : csr_op) (s : mstatus) : mstatus * bool :=
  if w =? 32 then
    match o with
    | CsrWrite v => ms_set32 (Z.land v ms_write_mask_32) s
    | CsrSetBits v => ms_set32 (Z.lor (compress64 (ms_value s)) (Z.land v ms_write_mask_32)) s
    | CsrClearBits v => ms_set32 (Z.land (compress64 (ms_value s)) (wnot 32 (Z.land v ms_write_mask_32))) s
    end
  else
    match o with
    | CsrWrite v => ms_write64 v s
    | CsrSetBits v => ms_write64 (Z.lor (ms_value s) v) s
    | CsrClearBits v => ms_write64 (Z.land (ms_value s) (wnot 64 v)) s
    end.

(** Model only: dispatch of one operation. *)
Definition status_step (has_s : bool) (s : mstatus) (o : status_op) : mstatus :=
  match o with
  | SetField f v => ms_stage has_s f v s
  | Submit => fst (ms_submit s)
  | Word w o => fst (ms_word w o s)
  end.

(** ** sstatus: riscv_xstatus.cc:123-165.  [view_set*]/[view_word] are shared by
    sstatus and ustatus, which differ only in the write mask (riscv_xstatus.cc:169-209). *)
Definition view_set64 (wm v : Z) (s : mstatus) : mstatus * bool :=
  ms_set64 (Z.lor (Z.land (ms_value s) (wnot 64 wm)) (Z.land v wm)) s.
(** riscv_xstatus.cc:123-165. *)
Definition view_set32 (wm v : Z) (s : mstatus) : mstatus * bool := view_set64 wm (stretch32 v) s.
(** riscv_xstatus.cc:123-165. *)
Definition view_word (wm w : Z) (o : csr_op) (s : mstatus) : mstatus * bool :=
  if w =? 32 then
    match o with
    | CsrWrite v => view_set32 wm (Z.land v (compress64 wm)) s
    | CsrSetBits v => view_set32 wm (Z.lor (compress64 (ms_value s)) (Z.land v (compress64 wm))) s
    | CsrClearBits v => view_set32 wm (Z.land (compress64 (ms_value s)) (wnot 32 (Z.land v (compress64 wm)))) s
    end
  else
    (* inherited riscv_csr.h:454-463, calling the overridden Set(uint64_t) *)
    let write v := view_set64 wm (Z.lor (Z.land v wm) (Z.land (ms_value s) (wnot 64 wm))) s in
    match o with
    | CsrWrite v => write v
    | CsrSetBits v => write (Z.lor (ms_value s) v)
    | CsrClearBits v => write (Z.land (ms_value s) (wnot 64 v))
    end.
(** riscv_csr.h:454-463. *)
Definition sstatus_word := view_word ss_write_mask.
(** riscv_xstatus.cc:133-135 AsUint64/AsUint32 of sstatus: the machine view unmasked. *)
Definition sstatus_as_uint64 (s : mstatus) : Z := ms_as_uint64 s.
(** riscv_xstatus.cc:133-135. *)
Definition sstatus_as_uint32 (s : mstatus) : Z := compress64 (sstatus_as_uint64 s).
