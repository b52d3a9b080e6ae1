(** Model of /repo/riscv/riscv32_htif_semihost.cc.  Reference counts of data buffers are absent. *)
From Coq Require Import ZArith Bool List.
From Verif Require Import Bits Memory SemSpec HtifSpec SemModel.
Import ListNotations.
Local Open Scope Z_scope.

(** riscv32_htif_semihost.h:43-48 and 71-82, the members, with memory and host.  [t_halt], [t_error]: the callbacks are set;
    [t_halts], [t_errors]: how often they were called. *)
Record htif (W : Type) := { t_mem : mem; t_fds : list (Z * Z); t_os : W; t_ready : Z; t_tohost : Z; t_from : Z; t_halt : bool; t_error : bool; t_halts : Z; t_errors : Z }.
Arguments t_mem {W}. Arguments t_fds {W}. Arguments t_os {W}. Arguments t_ready {W}. Arguments t_tohost {W}. Arguments t_from {W}.
Arguments t_halt {W}. Arguments t_error {W}. Arguments t_halts {W}. Arguments t_errors {W}.

Section Htif.
Context {W : Type} (H : hposix W).
(** Model only: updates of memory, map, host and counters. *)
Definition upd (s : htif W) (m : mem) (f : list (Z * Z)) (w : W) (dh de : Z) : htif W :=
  {| t_mem := m; t_fds := f; t_os := w; t_ready := t_ready s; t_tohost := t_tohost s; t_from := t_from s; t_halt := t_halt s; t_error := t_error s;
     t_halts := t_halts s + dh; t_errors := t_errors s + de |}.
(** Allocate(n), Allocate<uint8_t>(n): the size is an int; a negative one is undefined, and so is (in read, write, pread
    and pwrite, which are given all 64 bits) one that was truncated.  Simplification: openat likewise. *)
Definition allocate (n : Z) : option Z := if n <? 2 ^ 31 then Some n else None.
(** riscv32_htif_semihost.cc:129-135, 155-156, 163-164, 186-187, 196-197, 220-221: iter == end ? -1 : iter->second; the key is an int. *)
Definition host_fd (s : htif W) (v : Z) : Z := match find (t_fds s) (sgn 32 v) with Some fd => fd | None => -1 end.
(** A char* to the bytes [l]: undefined if there is no zero among them. *)
Definition c_name (l : list Z) : option (list Z) := if existsb (Z.eqb 0) l then Some (c_str l) else None.
(** riscv32_htif_semihost.cc:168-181 and 202-215: if (res > 0) store the first res bytes. *)
Definition store_read (m : mem) (a res : Z) (l : list Z) : mem := if 0 <? res then put_bytes m a (firstn (Z.to_nat res) l) else m.

(** riscv32_htif_semihost.cc:120-239, the switch: return_value and the state, None if undefined; the flag says whether
    the default case returned. *)
Definition syscall (s : htif W) (payload : Z) : option (Z * htif W * bool) :=
  let ps i := load_le (t_mem s) (payload + 8 * i) 8 in
  match ps 0 with
  | 56 =>
    match allocate (ps 3) with None => None | Some n =>
    match c_name (bytes_at (t_mem s) (ps 2) (Z.to_nat n)) with None => None | Some name =>
    let (r, w) := h_openat H (t_os s) (host_fd s (ps 1)) name (sgn 32 (ps 4)) (wrap 32 (ps 5)) in
    Some (r, upd s (t_mem s) (t_fds s) w 0 0, false) end end
  | 57 =>
    match find (t_fds s) (sgn 32 (ps 1)) with
    | None => Some (-1, s, false)
    | Some _ => Some (0, upd s (t_mem s) (erase (t_fds s) (sgn 32 (ps 1))) (t_os s) 0 0, false) end
  | 62 => let (r, w) := h_lseek H (t_os s) (host_fd s (ps 1)) (sgn 64 (ps 2)) (sgn 32 (ps 3)) in Some (r, upd s (t_mem s) (t_fds s) w 0 0, false)
  | 63 =>
    match allocate (ps 3) with None => None | Some n =>
    let '(res, l, w) := h_read H (t_os s) (host_fd s (ps 1)) (ps 3) in
    Some (sgn 32 res, upd s (store_read (t_mem s) (ps 2) (sgn 32 res) l) (t_fds s) w 0 0, false) end
  | 64 =>
    match allocate (ps 3) with None => None | Some n =>
    let (r, w) := h_write H (t_os s) (host_fd s (ps 1)) (bytes_at (t_mem s) (ps 2) (Z.to_nat n)) in
    Some (r, upd s (t_mem s) (t_fds s) w 0 0, false) end
  | 67 =>
    match allocate (ps 3) with None => None | Some n =>
    let '(res, l, w) := h_pread H (t_os s) (host_fd s (ps 1)) (ps 3) (sgn 64 (ps 4)) in
    Some (sgn 32 res, upd s (store_read (t_mem s) (ps 2) (sgn 32 res) l) (t_fds s) w 0 0, false) end
  | 68 =>
    match allocate (ps 3) with None => None | Some n =>
    let (r, w) := h_pwrite H (t_os s) (host_fd s (ps 1)) (bytes_at (t_mem s) (ps 2) (Z.to_nat n)) (sgn 64 (ps 4)) in
    Some (r, upd s (t_mem s) (t_fds s) w 0 0, false) end
  | 93 => Some (0, upd s (t_mem s) (t_fds s) (t_os s) (if t_halt s then 1 else 0) 0, false)
  | _ => if t_error s then Some (0, upd s (t_mem s) (t_fds s) (t_os s) 0 1, true) else None
  end.

(** riscv32_htif_semihost.cc:87-248 StoreEvent *)
Definition StoreEvent (s : htif W) (address size : Z) : option (htif W) :=
  if (t_ready s <? address) || (wrap 64 (address + size - 1) <? t_ready s) then Some s else
  if negb (t_mem s (t_ready s) =? 1) then Some s else
  let payload := load_le (t_mem s) (t_tohost s) 8 in
  let device := Z.land (Z.shiftr payload 56) 0xff in
  let command := Z.land (Z.shiftr payload 48) 0xff in
  if negb (device =? 0) || negb (command =? 0) then Some s else
  if negb (Z.land payload 1 =? 0) then Some (upd s (t_mem s) (t_fds s) (t_os s) (if t_halt s then 1 else 0) 0) else
  match syscall s payload with
  | None => None
  | Some (_, s', true) => Some s'
  | Some (return_value, s', false) =>
    let m := store_le (t_mem s') payload 8 (wrap 64 return_value) in
    Some (upd s' (store_le m (t_from s') 1 1) (t_fds s') (t_os s') 0 0) end.
End Htif.
(** riscv32_htif_semihost.cc:56-60, the constructor: fd_map_; AT_FDCWD = -100 *)
Definition htif_fds : list (Z * Z) := [(-100, -100); (2, 2); (1, 1); (0, 0)].
