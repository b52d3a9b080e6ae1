(** Specification of ARM semihosting (C87 to C89), after "Semihosting for AArch32 and AArch64" and the RISC-V
    semihosting convention.  Nothing here refers to the model. *)
From Coq Require Import ZArith Bool List.
From Verif Require Import Bits Memory.
Import ListNotations.
Local Open Scope Z_scope.

(** ** The host operating system *)
(** The system calls the simulator makes.  [W]: the state of the host outside the simulator.  Results are
    those of POSIX, -1 on failure.  [p_read w fd n]: the result and the [n] bytes of the buffer afterwards
    (those past the result are whatever the buffer held).  [p_fds w fd]: descriptor [fd] is open. *)
Record posix (W : Type) := {
  p_open : W -> list Z -> Z -> Z -> Z * W;
  p_dup : W -> Z -> Z * W;
  p_close : W -> Z -> Z * W;
  p_read : W -> Z -> Z -> Z * list Z * W;
  p_write : W -> Z -> list Z -> Z * W;
  p_lseek : W -> Z -> Z -> Z * W;
  p_fstat : W -> Z -> Z * Z * W;
  p_isatty : W -> Z -> Z * W;
  p_time : W -> Z * W;
  p_tmpnam : W -> Z -> list Z * W;
  p_errno : W -> Z;
  p_fds : W -> Z -> bool }.
Arguments p_open {W}. Arguments p_dup {W}. Arguments p_close {W}. Arguments p_read {W}. Arguments p_write {W}. Arguments p_lseek {W}.
Arguments p_fstat {W}. Arguments p_isatty {W}. Arguments p_time {W}. Arguments p_tmpnam {W}. Arguments p_errno {W}. Arguments p_fds {W}.

(** Descriptor [fd] changes to [b], the others stay. *)
Definition fds_upd (f f' : Z -> bool) (fd : Z) (b : bool) : Prop := forall x, f' x = if x =? fd then b else f x.
Definition fds_new (f f' : Z -> bool) (r : Z) : Prop :=
  r = -1 /\ (forall x, f' x = f x) \/ 0 <= r < 2 ^ 31 /\ f r = false /\ fds_upd f f' r true.
(** POSIX on descriptors: open and dup give a descriptor that was not open; close closes an open one; nothing
    else changes them.  Descriptors and counts are in range. *)
Definition posix_ok {W} (H : posix W) : Prop := forall w,
  (forall x, p_fds H w x = true -> 0 <= x < 2 ^ 31) /\
  (forall name fl md, fds_new (p_fds H w) (p_fds H (snd (p_open H w name fl md))) (fst (p_open H w name fl md))) /\
  (forall fd, fds_new (p_fds H w) (p_fds H (snd (p_dup H w fd))) (fst (p_dup H w fd)) /\ (p_fds H w fd = false -> fst (p_dup H w fd) = -1)) /\
  (forall fd, p_fds H w fd = true -> fst (p_close H w fd) = 0 /\ fds_upd (p_fds H w) (p_fds H (snd (p_close H w fd))) fd false) /\
  (forall fd, p_fds H w fd = false -> fst (p_close H w fd) = -1 /\ forall x, p_fds H (snd (p_close H w fd)) x = p_fds H w x) /\
  (forall fd n, 0 <= n -> -1 <= fst (fst (p_read H w fd n)) <= n /\ length (snd (fst (p_read H w fd n))) = Z.to_nat n /\ Forall (fun b => 0 <= b < 256) (snd (fst (p_read H w fd n))) /\
     forall x, p_fds H (snd (p_read H w fd n)) x = p_fds H w x) /\
  (forall fd l, -1 <= fst (p_write H w fd l) <= Z.of_nat (length l) /\ forall x, p_fds H (snd (p_write H w fd l)) x = p_fds H w x) /\
  (forall fd off x, p_fds H (snd (p_lseek H w fd off)) x = p_fds H w x) /\
  (forall fd x, p_fds H (snd (p_fstat H w fd)) x = p_fds H w x) /\
  (forall fd x, p_fds H (snd (p_isatty H w fd)) x = p_fds H w x) /\
  (forall x, p_fds H (snd (p_time H w)) x = p_fds H w x) /\
  (forall n x, p_fds H (snd (p_tmpnam H w n)) x = p_fds H w x).

(** ** Requests *)
(** The bytes of memory from [a]; memory with the bytes [l] written at [a]. *)
Definition bytes_at (m : mem) (a : Z) (n : nat) : list Z := map (fun k => m (a + Z.of_nat k)) (seq 0 n).
Definition put_bytes (m : mem) (a : Z) (l : list Z) : mem :=
  fun x => if (a <=? x) && (x <? a + Z.of_nat (length l)) then nth (Z.to_nat (x - a)) l 0 else m x.
(** Word [i] of the parameter block at [p]; [xb]: bytes of a register (4 or 8). *)
Definition arg (m : mem) (p xb : Z) (i : Z) : Z := load_le m (p + i * xb) (Z.to_nat xb).
(** The marker: slli x0, x0, 0x1f; ebreak; srai x0, x0, 7, the ebreak at [a]. *)
Definition marked (m : mem) (a : Z) : Prop :=
  load_le m (a - 4) 4 = 0x01f01013 /\ load_le m a 4 = 0x00100073 /\ load_le m (a + 4) 4 = 0x40705013.

(** Operation numbers. *)
Definition SYS_OPEN := 1. Definition SYS_CLOSE := 2. Definition SYS_WRITEC := 3. Definition SYS_WRITE0 := 4. Definition SYS_WRITE := 5.
Definition SYS_READ := 6. Definition SYS_READC := 7. Definition SYS_ISERROR := 8. Definition SYS_ISTTY := 9. Definition SYS_SEEK := 10.
Definition SYS_FLEN := 12. Definition SYS_TMPNAM := 13. Definition SYS_REMOVE := 14. Definition SYS_RENAME := 15. Definition SYS_CLOCK := 16.
Definition SYS_TIME := 17. Definition SYS_SYSTEM := 18. Definition SYS_ERRNO := 19. Definition SYS_GET_CMDLINE := 21. Definition SYS_HEAPINFO := 22.
Definition SYS_EXIT := 24. Definition SYS_ELAPSED := 48. Definition SYS_TICKFREQ := 49.
Definition sys_all : list Z := [SYS_OPEN; SYS_CLOSE; SYS_WRITEC; SYS_WRITE0; SYS_WRITE; SYS_READ; SYS_READC; SYS_ISERROR; SYS_ISTTY; SYS_SEEK;
  SYS_FLEN; SYS_TMPNAM; SYS_REMOVE; SYS_RENAME; SYS_CLOCK; SYS_TIME; SYS_SYSTEM; SYS_ERRNO; SYS_GET_CMDLINE; SYS_HEAPINFO; SYS_EXIT; SYS_ELAPSED; SYS_TICKFREQ].

(** The operations on an open file, given the host descriptor behind the handle.  Each gives the value
    returned in a0 (of [b] bits), the memory and the host afterwards.  [h]: the host calls. *)
Definition file_op {W} (H : posix W) (b op : Z) (fd : Z) (m : mem) (p : Z) (w : W) : option (Z * mem * W) :=
  let xb := b / 8 in
  if op =? SYS_WRITE then
    (** the number of bytes not written *)
    let l := bytes_at m (arg m p xb 1) (Z.to_nat (arg m p xb 2)) in
    let (r, w') := p_write H w fd l in
    Some (if r <? 0 then arg m p xb 2 else arg m p xb 2 - r, m, w')
  else if op =? SYS_READ then
    (** the number of bytes not read; only the bytes read are stored *)
    let '(r, buf, w') := p_read H w fd (arg m p xb 2) in
    Some (if r <? 0 then -1 mod 2 ^ b else arg m p xb 2 - r, put_bytes m (arg m p xb 1) (firstn (Z.to_nat r) buf), w')
  else if op =? SYS_SEEK then
    let (r, w') := p_lseek H w fd (arg m p xb 1) in
    Some (if r <? 0 then -1 mod 2 ^ b else 0, m, w')
  else if op =? SYS_FLEN then
    let '(r, size, w') := p_fstat H w fd in
    Some (if r <? 0 then -1 mod 2 ^ b else wrap b size, m, w')
  else if op =? SYS_ISTTY then
    let (r, w') := p_isatty H w fd in Some (wrap b r, m, w')
  else None.

(** The command line [cmd] is stored with a terminating zero and its length in the block; a0 is 0, or -1 if the
    buffer is too short. *)
Definition cmdline_op (b : Z) (cmd : list Z) (m : mem) (p : Z) : Z * mem :=
  let xb := b / 8 in
  if arg m p xb 1 <=? Z.of_nat (length cmd) then (-1 mod 2 ^ b, m)
  else (0, store_le (put_bytes m (arg m p xb 0) (cmd ++ [0])) (p + xb) (Z.to_nat xb) (Z.of_nat (length cmd))).

(** fopen modes 0 to 11 (r, rb, r+, r+b, w, wb, w+, w+b, a, ab, a+, a+b) as POSIX open flags:
    O_RDONLY 0, O_WRONLY 1, O_RDWR 2, O_CREAT 64, O_TRUNC 512, O_APPEND 1024. *)
Definition open_flags (mode : Z) : Z :=
  nth (Z.to_nat (mode / 2)) [0; 2; 64 + 512 + 1; 64 + 512 + 2; 64 + 1024 + 1; 64 + 1024 + 2] 0.


(** ** Histories *)
(** What the program and the host see of a semihosted machine. *)
Record view (W : Type) := View { v_mem : mem; v_a0 : Z; v_a1 : Z; v_os : W }.
Arguments View {W}. Arguments v_mem {W}. Arguments v_a0 {W}. Arguments v_a1 {W}. Arguments v_os {W}.
(** The operations that take a handle as first word of the parameter block. *)
Definition handle_ops : list Z := [SYS_CLOSE; SYS_WRITE; SYS_READ; SYS_ISTTY; SYS_SEEK; SYS_FLEN].
(** The file name of SYS_OPEN, and as seen by a C function (up to the first zero). *)
Definition name_arg (b : Z) (m : mem) (p : Z) : list Z := bytes_at m (arg m p (b / 8) 0) (Z.to_nat (arg m p (b / 8) 2)).
Fixpoint c_string (l : list Z) : list Z := match l with [] => [] | c :: l' => if c =? 0 then [] else c :: c_string l' end.
Section History.
Context {W : Type} (H : posix W) (b : Z) (flags : Z -> Z).
(** [S]: a machine; [get], [put]: its visible part; [ebreak s a]: executes the ebreak at [a], None if undefined. *)
Context {S : Type} (get : S -> view W) (put : S -> view W -> S) (ebreak : S -> Z -> option S) (init : S -> Prop).

(** Every history: the program and the host do as they please between calls.  [issued]: the handles SYS_OPEN returned. *)
Inductive history : S -> list Z -> Prop :=
| h_init s : init s -> history s []
| h_between s l v : history s l -> history (put s v) l
| h_call s l a s' : history s l -> marked (v_mem (get s)) a -> ebreak s a = Some s' ->
    history s' (if (v_a0 (get s) =? SYS_OPEN) && negb (v_a0 (get s') =? -1 mod 2 ^ b) then v_a0 (get s') :: l else l).

(** Orderly histories: no handle is closed again after SYS_CLOSE accepted it, and the rest of the simulator does not
    close descriptors of the semihost.  [live]: handles and the host descriptors behind them; [closed]: handles closed. *)
Definition owned (live : list (Z * Z)) (closed : list Z) (fd : Z) : Prop := In fd (map fst live) \/ In fd (map snd live) \/ In fd closed.
Definition handle_of (s : S) : Z := arg (v_mem (get s)) (v_a1 (get s)) (b / 8) 0.
(** The descriptor SYS_OPEN opens: 0 or 1 for the console, else that of [p_open] with the flags [flags mode]. *)
Definition open_fd (s : S) : Z :=
  let m := v_mem (get s) in
  let mode := arg m (v_a1 (get s)) (b / 8) 1 in
  if list_eq_dec Z.eq_dec (name_arg b m (v_a1 (get s))) [58; 116; 116] then if mode =? 0 then 0 else 1
  else fst (p_open H (v_os (get s)) (c_string (name_arg b m (v_a1 (get s)))) (flags mode) mode).
Inductive orderly : S -> list (Z * Z) -> list Z -> Prop :=
| o_init s : init s -> (forall x, 0 <= x <= 2 -> p_fds H (v_os (get s)) x = true) -> orderly s [(2, 2); (1, 1); (0, 0)] []
| o_program s live closed m a0 a1 : orderly s live closed -> orderly (put s (View m a0 a1 (v_os (get s)))) live closed
| o_host s live closed w : orderly s live closed -> (forall x, owned live closed x -> p_fds H w x = true) ->
    orderly (put s (View (v_mem (get s)) (v_a0 (get s)) (v_a1 (get s)) w)) live closed
| o_open s live closed a s' : orderly s live closed -> marked (v_mem (get s)) a -> v_a0 (get s) = SYS_OPEN -> ebreak s a = Some s' ->
    0 <= arg (v_mem (get s)) (v_a1 (get s)) (b / 8) 1 < 2 ^ 31 -> 0 <= arg (v_mem (get s)) (v_a1 (get s)) (b / 8) 2 < 2 ^ 31 ->
    orderly s' (if v_a0 (get s') =? -1 mod 2 ^ b then live else (v_a0 (get s'), open_fd s) :: live) closed
| o_close s live closed a s' fd : orderly s live closed -> marked (v_mem (get s)) a -> v_a0 (get s) = SYS_CLOSE -> ebreak s a = Some s' ->
    In (handle_of s, fd) live -> 2 < fd ->
    orderly s' (filter (fun p => negb (fst p =? handle_of s)) live) (handle_of s :: closed)
| o_close_std s live closed a s' fd : orderly s live closed -> marked (v_mem (get s)) a -> v_a0 (get s) = SYS_CLOSE -> ebreak s a = Some s' ->
    In (handle_of s, fd) live -> fd <= 2 -> orderly s' live closed
| o_other s live closed a s' : orderly s live closed -> marked (v_mem (get s)) a -> v_a0 (get s) <> SYS_OPEN -> v_a0 (get s) <> SYS_CLOSE ->
    ebreak s a = Some s' -> orderly s' live closed.
End History.

(** ** A host for the examples *)
(** At most 16 descriptors, each of a file; the lowest free one is taken; what is written is logged with its file;
    a read gives one byte 7; a file's length is 12. *)
Record demo := Demo { d_fds : list (Z * Z); d_log : list (Z * list Z); d_opens : list (list Z * Z * Z) }.
Definition d_file (w : demo) (fd : Z) : option Z :=
  if (0 <=? fd) && (fd <? 16) then option_map snd (List.find (fun p => fst p =? fd) (d_fds w)) else None.
Definition d_is (w : demo) (fd : Z) : bool := match d_file w fd with Some _ => true | None => false end.
Definition d_free (w : demo) : option Z := List.find (fun x => negb (d_is w x)) (map Z.of_nat (seq 0 16)).
Definition d_new (w : demo) (file : Z) : Z * demo :=
  match d_free w with Some x => (x, Demo ((x, file) :: d_fds w) (d_log w) (d_opens w)) | None => (-1, w) end.
Definition demo_host : posix demo := {|
  p_open w name fl md := d_new (Demo (d_fds w) (d_log w) (d_opens w ++ [(name, fl, md)])) (100 + Z.of_nat (length (d_opens w)));
  p_dup w fd := match d_file w fd with Some f => d_new w f | None => (-1, w) end;
  p_close w fd := if d_is w fd then (0, Demo (filter (fun p => negb (fst p =? fd)) (d_fds w)) (d_log w) (d_opens w)) else (-1, w);
  p_read w fd n := (if d_is w fd then Z.min n 1 else -1, firstn (Z.to_nat n) (7 :: repeat 0 (Z.to_nat n)), w);
  p_write w fd l := match d_file w fd with Some f => (Z.of_nat (length l), Demo (d_fds w) (d_log w ++ [(f, l)]) (d_opens w)) | None => (-1, w) end;
  p_lseek w fd off := (if d_is w fd then (if off <? 0 then -1 else off) else -1, w);
  p_fstat w fd := (if d_is w fd then 0 else -1, 12, w);
  p_isatty w fd := (if fd <=? 2 then 1 else 0, w);
  p_time w := (1000, w);
  p_tmpnam w n := (firstn (Z.to_nat n) (47 :: repeat 0 (Z.to_nat n)), w);
  p_errno w := 9;
  p_fds := d_is |}.
Definition demo0 : demo := Demo [(0, 10); (1, 11); (2, 12)] [] [].

Example put_case : map (put_bytes (fun _ => 9) 4 [1; 2]) [3; 4; 5; 6] = [9; 1; 2; 9]. Proof. reflexivity. Qed.
