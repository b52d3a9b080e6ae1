(** Model of /repo/riscv/riscv_arm_semihost.cc and .h.  Instruction and data memory are one byte store
    (Memory.v); absent are log messages and the reference counts of data buffers. *)
From Coq Require Import ZArith Bool List.
From Verif Require Import Bits Memory SemSpec.
Import ListNotations.
Local Open Scope Z_scope.

(** riscv_arm_semihost.h:150-168, the members, with a0, a1, the memory and the host.  [s_cb]: exit_callback_ is
    set; [s_exits]: how often it was called.  is_32_bit_ is the argument [b] (32 or 64) of the functions. *)
Record semi (W : Type) := { s_mem : mem; s_a0 : Z; s_a1 : Z; s_fds : list (Z * Z); s_errno : Z; s_os : W; s_cmd : list Z; s_cb : bool; s_exits : Z }.
Arguments s_mem {W}. Arguments s_a0 {W}. Arguments s_a1 {W}. Arguments s_fds {W}. Arguments s_errno {W}. Arguments s_os {W}. Arguments s_cmd {W}. Arguments s_cb {W}. Arguments s_exits {W}.

Section Sem.
Context {W : Type} (H : posix W) (b : Z).

(** Model only: record updates. *)
Definition set_mem (s : semi W) (m : mem) := {| s_mem := m; s_a0 := s_a0 s; s_a1 := s_a1 s; s_fds := s_fds s; s_errno := s_errno s; s_os := s_os s; s_cmd := s_cmd s; s_cb := s_cb s; s_exits := s_exits s |}.
(** Model only: as above. *)
Definition set_fds (s : semi W) (f : list (Z * Z)) := {| s_mem := s_mem s; s_a0 := s_a0 s; s_a1 := s_a1 s; s_fds := f; s_errno := s_errno s; s_os := s_os s; s_cmd := s_cmd s; s_cb := s_cb s; s_exits := s_exits s |}.
(** Model only: as above. *)
Definition set_errno (s : semi W) (e : Z) := {| s_mem := s_mem s; s_a0 := s_a0 s; s_a1 := s_a1 s; s_fds := s_fds s; s_errno := e; s_os := s_os s; s_cmd := s_cmd s; s_cb := s_cb s; s_exits := s_exits s |}.
(** Model only: as above. *)
Definition set_os (s : semi W) (w : W) := {| s_mem := s_mem s; s_a0 := s_a0 s; s_a1 := s_a1 s; s_fds := s_fds s; s_errno := s_errno s; s_os := w; s_cmd := s_cmd s; s_cb := s_cb s; s_exits := s_exits s |}.
(** Model only: as above. *)
Definition set_a0 (s : semi W) (v : Z) := {| s_mem := s_mem s; s_a0 := v; s_a1 := s_a1 s; s_fds := s_fds s; s_errno := s_errno s; s_os := s_os s; s_cmd := s_cmd s; s_cb := s_cb s; s_exits := s_exits s |}.
(** Model only: exit_callback_(). *)
Definition call_exit (s : semi W) := {| s_mem := s_mem s; s_a0 := s_a0 s; s_a1 := s_a1 s; s_fds := s_fds s; s_errno := s_errno s; s_os := s_os s; s_cmd := s_cmd s; s_cb := s_cb s; s_exits := s_exits s + 1 |}.

(** absl::flat_hash_map find, erase and insert (which keeps an existing element), as an association list. *)
Fixpoint find (l : list (Z * Z)) (k : Z) : option Z := match l with [] => None | (a, v) :: l' => if a =? k then Some v else find l' k end.
(** As above. *)
Definition erase (l : list (Z * Z)) (k : Z) : list (Z * Z) := filter (fun p => negb (fst p =? k)) l.
(** As above. *)
Definition insert (l : list (Z * Z)) (k v : Z) : list (Z * Z) := match find l k with Some _ => l | None => (k, v) :: l end.
(** static_cast<int>. *)
Definition int_of (v : Z) : Z := sgn 32 v.
(** std::string::c_str() as seen by a C function: up to the first zero. *)
Fixpoint c_str (l : list Z) : list Z := match l with [] => [] | c :: l' => if c =? 0 then [] else c :: c_str l' end.
(** Loading word [i] of the parameter block into db1_, db2_ or db3_. *)
Definition word (s : semi W) (p i : Z) : Z := load_le (s_mem s) (p + i * (b / 8)) (Z.to_nat (b / 8)).
(** Conversion of an int to uint64_t. *)
Definition u64 (v : Z) : Z := wrap 64 v.
(** Model only: outcomes.  None: undefined behaviour; Some (None, _): a status that is not ok; Some (Some r, _): *ret_val = r. *)
Definition result := option (option Z * semi W).
(** Model only: *ret_val = r; return OkStatus(). *)
Definition ok (r : Z) (s : semi W) : result := Some (Some r, s).

(** riscv_arm_semihost.cc:173-201 *)
Definition SysClose (s : semi W) (p : Z) : result :=
  match find (s_fds s) (int_of (word s p 0)) with
  | None => ok (u64 (-1)) s
  | Some host_fd =>
    if host_fd <=? 2 then ok 0 s else
    let (ret, w) := p_close H (s_os s) host_fd in
    let s := set_os s w in
    let s := if ret =? 0 then set_errno s (p_errno H w) else set_fds s (erase (s_fds s) (int_of (word s p 0))) in
    ok (u64 ret) s end.
(** riscv_arm_semihost.cc:204-214, 323-327, 438-453, 484-488, 569-579: SysClock, SysElapsed, SysIsError, SysReadc, SysRemove,
    SysRename, SysSystem, SysWritec, SysWrite0 return UnimplementedError. *)
Definition Unimplemented (s : semi W) : result := Some (None, s).
(** riscv_arm_semihost.cc:217-220 *)
Definition SysErrno (s : semi W) : result := ok (u64 (s_errno s)) s.
(** riscv_arm_semihost.cc:223-247; kAdpStoppedApplicationExit = 0x20026 *)
Definition SysException (s : semi W) (p : Z) : result :=
  let v := wrap 32 (if b =? 32 then p else word s p 0) in
  if v =? 0x20026 then if s_cb s then ok 0 (call_exit s) else Some (None, s) else Some (None, s).
(** riscv_arm_semihost.cc:250-272 *)
Definition SysFlen (s : semi W) (p : Z) : result :=
  match find (s_fds s) (int_of (word s p 0)) with
  | None => ok (u64 (-1)) s
  | Some host_fd =>
    let '(res, size, w) := p_fstat H (s_os s) host_fd in
    let s := set_os s w in
    if res <? 0 then ok (u64 (-1)) (set_errno s (p_errno H w)) else ok (u64 size) s end.
(** riscv_arm_semihost.cc:275-300 *)
Definition SysGetCmdline (s : semi W) (p : Z) : result :=
  let n := Z.of_nat (length (s_cmd s)) in
  let w1 := word s p 0 in
  if word s p 1 <=? n then ok (u64 (-1)) s else
  let m := put_bytes (s_mem s) w1 (s_cmd s ++ [0]) in
  let m := store_le (store_le m p (Z.to_nat (b / 8)) w1) (p + b / 8) (Z.to_nat (b / 8)) n in
  ok n (set_mem s m).
(** riscv_arm_semihost.cc:303-319: four uint32_t; the address goes through int. *)
Definition SysHeapInfo (s : semi W) (p : Z) : result :=
  let block_address := u64 (int_of (word s p 0)) in
  ok 0 (set_mem s (put_bytes (s_mem s) block_address (repeat 0 16))).
(** riscv_arm_semihost.cc:330-349 *)
Definition SysIsTty (s : semi W) (p : Z) : result :=
  match find (s_fds s) (int_of (word s p 0)) with
  | None => ok (u64 (-1)) s
  | Some host_fd =>
    let (ret, w) := p_isatty H (s_os s) host_fd in
    let s := set_os s w in
    ok (u64 ret) (if ret =? 0 then set_errno s (p_errno H w) else s) end.
(** riscv_arm_semihost.cc:352-402.  A negative length allocates more than any memory: undefined.  O_CREAT = 64. *)
Definition SysOpen (s : semi W) (p : Z) : result :=
  let string_address := word s p 0 in
  let mode := int_of (word s p 1) in
  let file_name_len := int_of (word s p 2) in
  if file_name_len <? 0 then None else
  let file_name := bytes_at (s_mem s) string_address (Z.to_nat file_name_len) in
  let '(host_fd, w) :=
    if list_eq_dec Z.eq_dec file_name [58; 116; 116] then ((if mode =? 0 then 0 else 1), s_os s)
    else p_open H (s_os s) (c_str file_name) (if mode =? 0 then 0 else 64) mode in
  let (target_fd, w) := p_dup H w host_fd in
  let s := set_os s w in
  if target_fd <? 0 then ok (u64 target_fd) (set_errno s (p_errno H w))
  else ok (u64 target_fd) (set_fds s (insert (s_fds s) target_fd host_fd)).
(** riscv_arm_semihost.cc:404-435.  A negative length: undefined. *)
Definition SysRead (s : semi W) (p : Z) : result :=
  let length := int_of (word s p 2) in
  match find (s_fds s) (int_of (word s p 0)) with
  | None => ok (u64 (-1)) s
  | Some host_fd =>
    if length <? 0 then None else
    let '(res, buf, w) := p_read H (s_os s) host_fd length in
    let s' := set_os s w in
    if res <? 0 then ok (u64 res) (set_errno s' (p_errno H w))
    else ok (u64 res) (set_mem s' (put_bytes (s_mem s) (word s p 1) buf)) end.
(** riscv_arm_semihost.cc:456-481: the offset goes through int to uint64_t to off_t. *)
Definition SysSeek (s : semi W) (p : Z) : result :=
  match find (s_fds s) (int_of (word s p 0)) with
  | None => ok (u64 (-1)) s
  | Some host_fd =>
    let (res, w) := p_lseek H (s_os s) host_fd (int_of (word s p 1)) in
    let s := set_os s w in
    if res <? 0 then ok (u64 (-1)) (set_errno s (p_errno H w)) else ok 0 s end.
(** riscv_arm_semihost.cc:491-495 *)
Definition SysTickFreq (s : semi W) : result := ok (u64 (-1)) s.
(** riscv_arm_semihost.cc:498-501 *)
Definition SysTime (s : semi W) : result := let (t, w) := p_time H (s_os s) in ok (u64 t) (set_os s w).
(** riscv_arm_semihost.cc:504-532; L_tmpnam = 20 (glibc); the address goes through int. *)
Definition SysTmpnam (s : semi W) (p : Z) : result :=
  let target_id := int_of (word s p 1) in
  let length := int_of (word s p 2) in
  if (target_id <? 0) || (255 <? target_id) then ok (u64 (-1)) s else
  if length <? 20 then ok (u64 (-1)) s else
  let (buf, w) := p_tmpnam H (s_os s) length in
  ok 0 (set_mem (set_os s w) (put_bytes (s_mem s) (u64 (int_of (word s p 0))) buf)).
(** riscv_arm_semihost.cc:535-566.  A negative length: undefined. *)
Definition SysWrite (s : semi W) (p : Z) : result :=
  let length := int_of (word s p 2) in
  match find (s_fds s) (int_of (word s p 0)) with
  | None => ok (u64 (-1)) s
  | Some host_fd =>
    if length <? 0 then None else
    let (res, w) := p_write H (s_os s) host_fd (bytes_at (s_mem s) (word s p 1) (Z.to_nat length)) in
    let s := set_os s w in
    ok (u64 res) (if res <? 0 then set_errno s (p_errno H w) else s) end.

(** riscv_arm_semihost.cc:46-77 and riscv_arm_semihost.h:99-121: the map from operation number to function. *)
Definition operation (op : Z) : option (semi W -> Z -> result) :=
  match op with
  | 2 => Some SysClose | 16 => Some (fun s _ => Unimplemented s) | 48 => Some (fun s _ => Unimplemented s) | 19 => Some (fun s _ => SysErrno s)
  | 24 => Some SysException | 12 => Some SysFlen | 21 => Some SysGetCmdline | 22 => Some SysHeapInfo
  | 8 => Some (fun s _ => Unimplemented s) | 9 => Some SysIsTty | 1 => Some SysOpen | 6 => Some SysRead | 7 => Some (fun s _ => Unimplemented s)
  | 14 => Some (fun s _ => Unimplemented s) | 15 => Some (fun s _ => Unimplemented s) | 10 => Some SysSeek | 18 => Some (fun s _ => Unimplemented s)
  | 49 => Some (fun s _ => SysTickFreq s) | 17 => Some (fun s _ => SysTime s) | 13 => Some SysTmpnam | 5 => Some SysWrite
  | 3 => Some (fun s _ => Unimplemented s) | 4 => Some (fun s _ => Unimplemented s) | _ => None end.

(** riscv_arm_semihost.cc:105-117 IsSemihostingCall; the three words from address - 4 *)
Definition IsSemihostingCall (s : semi W) (address : Z) : bool :=
  let w i := load_le (s_mem s) (address - 4 + 4 * i) 4 in
  negb (negb (w 0 =? 0x01f01013) || negb (w 1 =? 0x00100073) || negb (w 2 =? 0x40705013)).
(** riscv_arm_semihost.cc:119-171 OnEBreak *)
Definition OnEBreak (s : semi W) (address : Z) : option (semi W) :=
  if negb (IsSemihostingCall s address) then Some s else
  match operation (s_a0 s) with
  | None => Some s
  | Some op =>
    match op s (s_a1 s) with
    | None => None
    | Some (None, s') => Some (set_a0 s' (wrap b (-1)))
    | Some (Some ret_val, s') => Some (set_a0 s' (wrap b ret_val)) end end.
End Sem.

(** riscv_arm_semihost.cc:88-94, the constructor: fd_map_ *)
Definition initial_fds : list (Z * Z) := [(2, 2); (1, 1); (0, 0)].
