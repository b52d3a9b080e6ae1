(** C87 to C89: ARM semihosting. *)
From Coq Require Import ZArith Bool List Lia.
From Verif Require Import Bits Memory SemSpec SemModel SemProofs.
Import ListNotations.
Local Open Scope Z_scope.

(** ** A program for the examples *)
(** The marked ebreak at 0x100, the block [args] at 0x200, the bytes [str] at 0x300. *)
Definition image (b : Z) (args str : list Z) : mem :=
  let m := put_bytes (fun _ => 0) 0x300 str in
  let m := fold_left (fun m p => store_le m (0x200 + Z.of_nat (fst p) * (b / 8)) (Z.to_nat (b / 8)) (snd p)) (combine (seq 0 (length args)) args) m in
  store_le (store_le (store_le m 0xfc 4 0x01f01013) 0x100 4 0x00100073) 0x104 4 0x40705013.
Definition boot : semi demo := {| s_mem := image 32 [] []; s_a0 := 0; s_a1 := 0; s_fds := initial_fds; s_errno := 0; s_os := demo0; s_cmd := [97; 32; 98]; s_cb := true; s_exits := 0 |}.
Definition before (b : Z) (s : semi demo) (op : Z) (args str : list Z) : semi demo := put s (View (image b args str) op 0x200 (s_os s)).
(** Performs one call on the machine, if it is defined. *)
Definition call (b : Z) (s : option (semi demo)) (op : Z) (args str : list Z) : option (semi demo) :=
  match s with Some s => OnEBreak demo_host b (before b s op args str) 0x100 | None => None end.
Definition a0_of (s : option (semi demo)) : Z := match s with Some s => s_a0 s | None => -2 end.
Definition log_of (s : option (semi demo)) : list (Z * list Z) := match s with Some s => d_log (s_os s) | None => [] end.
Definition A : list Z := [65].
Definition B : list Z := [66].
Definition TT : list Z := [58; 116; 116].
Definition open_A := call 32 (Some boot) SYS_OPEN [0x300; 4; 1] A.
Example image_marked : forall str, marked (image 32 [0x300; 4; 1] str) 0x100.
Proof. intros str. repeat split; vm_compute; reflexivity. Qed.

(** ** C87 *)
Theorem semihost_unmarked_nothing : forall (W : Type) (H : posix W) (b : Z) (s : semi W) (a : Z),
  ~ marked (s_mem s) a -> OnEBreak H b s a = Some s.
Proof. intros W H b s a N. unfold OnEBreak. rewrite (unmarked_call _ _ N). reflexivity. Qed.
Print Assumptions semihost_unmarked_nothing.
Example unmarked_case : a0_of (OnEBreak demo_host 32 (before 32 boot SYS_TIME [] []) 0x104) = SYS_TIME. Proof. vm_compute; reflexivity. Qed.

Theorem semihost_unknown_op_nothing : forall (W : Type) (H : posix W) (b : Z) (s : semi W) (a : Z),
  ~ In (s_a0 s) sys_all -> OnEBreak H b s a = Some s.
Proof.
  intros W H b s a N. unfold OnEBreak. destruct (IsSemihostingCall s a); [|reflexivity]. cbn [negb]. rewrite operation_eq.
  assert (G : forall k, In k sys_all -> s_a0 s =? k = false) by (intros k K; apply Z.eqb_neq; intros <-; contradiction).
  cbn [existsb]. rewrite !G by (repeat first [left; reflexivity|right]). reflexivity.
Qed.
Print Assumptions semihost_unknown_op_nothing.
Example unknown_op_case : a0_of (call 32 (Some boot) 0x20 [] []) = 0x20. Proof. vm_compute; reflexivity. Qed.

(** The operations the code does not implement: a0 is -1, all else stays. *)
Theorem semihost_unimplemented_minus_one : forall (W : Type) (H : posix W) (b : Z) (s : semi W) (a : Z),
  marked (s_mem s) a -> In (s_a0 s) [SYS_CLOCK; SYS_ELAPSED; SYS_ISERROR; SYS_READC; SYS_REMOVE; SYS_RENAME; SYS_SYSTEM; SYS_WRITEC; SYS_WRITE0] ->
  OnEBreak H b s a = Some (put s (View (s_mem s) (-1 mod 2 ^ b) (s_a1 s) (s_os s))).
Proof.
  intros W H b s a M I. rewrite (ebreak_marked H b s a (fun s _ => Unimplemented s) M); [reflexivity|].
  cbn [In] in I. repeat destruct I as [I|I]; try contradiction; rewrite <- I; reflexivity.
Qed.
Print Assumptions semihost_unimplemented_minus_one.
Example unimplemented_case : a0_of (call 64 (Some boot) SYS_CLOCK [] []) = 2 ^ 64 - 1. Proof. vm_compute; reflexivity. Qed.

(** A call changes a0 and, for four operations, the memory; the exit callback runs exactly when the program reports
    ADP_Stopped_ApplicationExit (in a1 on RV32, in the block on RV64). *)
Theorem semihost_call_frame : forall (W : Type) (H : posix W) (b : Z) (s : semi W) (a : Z) (s' : semi W),
  b = 32 \/ b = 64 -> marked (s_mem s) a -> In (s_a0 s) sys_all -> OnEBreak H b s a = Some s' ->
  s_a1 s' = s_a1 s /\ 0 <= s_a0 s' < 2 ^ b /\
  (~ In (s_a0 s) [SYS_READ; SYS_TMPNAM; SYS_GET_CMDLINE; SYS_HEAPINFO] -> s_mem s' = s_mem s) /\
  s_exits s' = s_exits s + (if (s_a0 s =? SYS_EXIT) && (wrap 32 (if b =? 32 then s_a1 s else arg (s_mem s) (s_a1 s) (b / 8) 0) =? 0x20026) && s_cb s then 1 else 0).
Proof. intros W H b s a s' HB M I E. destruct (frame H b HB s a s' M I E) as (A1 & _ & _ & A2 & A3 & A4). exact (conj A1 (conj A2 (conj A3 A4))). Qed.
Print Assumptions semihost_call_frame.
Example exit_case : option_map s_exits (call 64 (Some boot) SYS_EXIT [0x20026; 0] []) = Some 1 /\ option_map s_exits (call 64 (Some boot) SYS_EXIT [0x20023] []) = Some 0.
Proof. vm_compute; split; reflexivity. Qed.

(** ** C88 *)
(** In every history a handle that SYS_OPEN never returned and that is not 0, 1 or 2 is refused by every operation: a0 is
    -1 and all else, the host included, stays.  Only the low 32 bits of the handle count. *)
Theorem semihost_unknown_handle_refused_partial : forall (W : Type) (H : posix W) (b : Z) (s : semi W) (issued : list Z) (a : Z),
  b = 32 \/ b = 64 -> posix_ok H -> history b get put (OnEBreak H b) start s issued ->
  marked (s_mem s) a -> In (s_a0 s) handle_ops ->
  ~ In (wrap 32 (arg (s_mem s) (s_a1 s) (b / 8) 0)) ([0; 1; 2] ++ issued) ->
  OnEBreak H b s a = Some (put s (View (s_mem s) (-1 mod 2 ^ b) (s_a1 s) (s_os s))).
Proof.
  intros W H b s l a HB K HI M I N. rewrite (refused H b HB s a M I); [apply f_equal, put_same|].
  destruct (find (s_fds s) _) eqn:F; [exfalso|reflexivity].
  destruct (issued_inv H b HB s l K HI (int_of (word b s (s_a1 s) 0))) as [R Q]; [congruence|]. apply N. clear N.
  assert (E : wrap 32 (arg (s_mem s) (s_a1 s) (b / 8) 0) = int_of (word b s (s_a1 s) 0)).
  { change (arg (s_mem s) (s_a1 s) (b / 8) 0) with (word b s (s_a1 s) 0). rewrite int_of_wrap in *. revert R. generalize (wrap_range 32 (word b s (s_a1 s) 0)). unfold inw. generalize (wrap 32 (word b s (s_a1 s) 0)). intros v V.
    specialize (V ltac:(lia)). unfold int_of, sgn, wrap. change (2 ^ (32 - 1)) with (2 ^ 31). rewrite Z.mod_small by exact V. destruct (v <? 2 ^ 31); lia. }
  rewrite E. apply in_or_app. destruct Q as [Q|Q]; [left|right; exact Q]. cbn [In]. lia.
Qed.
Print Assumptions semihost_unknown_handle_refused_partial.
Example unknown_handle_case : a0_of (call 32 open_A SYS_WRITE [3; 0x300; 1] A) = 2 ^ 32 - 1 /\ log_of (call 32 open_A SYS_WRITE [3; 0x300; 1] A) = [] /\ a0_of open_A = 4.
Proof. vm_compute; repeat split. Qed.

(** On RV64 a handle never returned is accepted if its low half is a handle. *)
Theorem semihost_unknown_handle_refused_refuted : exists (s s' : semi demo),
  history 64 get put (OnEBreak demo_host 64) start s [] /\ marked (s_mem s) 0x100 /\ s_a0 s = SYS_WRITE /\
  arg (s_mem s) (s_a1 s) 8 0 = 2 ^ 32 + 1 /\ OnEBreak demo_host 64 s 0x100 = Some s' /\ d_log (s_os s') = [(11, [65])].
Proof.
  destruct (OnEBreak demo_host 64 (before 64 boot SYS_WRITE [2 ^ 32 + 1; 0x300; 1] A) 0x100) as [s'|] eqn:E; [|exfalso].
  - exists (before 64 boot SYS_WRITE [2 ^ 32 + 1; 0x300; 1] A), s'. split; [unfold before; apply h_between, h_init; reflexivity|]. split; [repeat split; vm_compute; reflexivity|].
    split; [reflexivity|]. split; [vm_compute; reflexivity|]. split; [exact E|].
    apply (f_equal log_of) in E. cbn [log_of] in E. rewrite <- E. vm_compute. reflexivity.
  - apply (f_equal a0_of) in E. vm_compute in E. discriminate E.
Qed.
Print Assumptions semihost_unknown_handle_refused_refuted.

(** Orderly histories: the handles in use are distinct, also from those closed, and every one of them and its host
    descriptor is open. *)
Theorem semihost_handles_distinct_partial : forall (W : Type) (H : posix W) (b : Z) (s : semi W) (live : list (Z * Z)) (closed : list Z),
  b = 32 \/ b = 64 -> posix_ok H -> orderly H b code_flags get put (OnEBreak H b) start s live closed ->
  NoDup (map fst live ++ closed) /\ (forall x, owned live closed x -> p_fds H (s_os s) x = true) /\
  (forall h1 h2 fd, In (h1, fd) live -> In (h2, fd) live -> 2 < fd -> h1 = h2).
Proof.
  intros W H b s live closed HB K O. apply (orderly_inv H b HB) in O; [|exact K].
  split; [apply (i_nodup _ _ _ _ O)|]. split; [apply (i_open _ _ _ _ O)|]. intros h1 h2 fd L1 L2 F. destruct (i_host _ _ _ _ O h2 fd L2 F) as (_ & _ & Q). apply Q, L1.
Qed.
Print Assumptions semihost_handles_distinct_partial.

(** Closing a handle in use returns 0 and closes the host descriptor behind it and no other. *)
Theorem semihost_close_partial : forall (W : Type) (H : posix W) (b : Z) (s : semi W) (live : list (Z * Z)) (closed : list Z) (a h fd : Z),
  b = 32 \/ b = 64 -> posix_ok H -> orderly H b code_flags get put (OnEBreak H b) start s live closed ->
  marked (s_mem s) a -> s_a0 s = SYS_CLOSE -> arg (s_mem s) (s_a1 s) (b / 8) 0 = h -> In (h, fd) live ->
  exists s', OnEBreak H b s a = Some s' /\ s_a0 s' = 0 /\
    s_os s' = (if fd <=? 2 then s_os s else snd (p_close H (s_os s) fd)) /\
    forall x, p_fds H (s_os s') x = if (2 <? fd) && (x =? fd) then false else p_fds H (s_os s) x.
Proof.
  intros W H b s live closed a h fd HB K O M C E L. apply (orderly_inv H b HB) in O; [|exact K].
  destruct (live_range H _ _ _ _ _ K O L) as [RH RF]. rewrite (close_eq H b HB s a M C). change (word b s (s_a1 s) 0) with (arg (s_mem s) (s_a1 s) (b / 8) 0).
  rewrite E, (int_small _ RH), (i_live _ _ _ _ O _ _ L). destruct (Z.leb_spec fd 2).
  - eexists. split; [reflexivity|]. split; [reflexivity|]. split; [reflexivity|]. assert (2 <? fd = false) as -> by (apply Z.ltb_ge; lia). reflexivity.
  - destruct (K (s_os s)) as (_ & _ & _ & KC & _). destruct (KC fd) as [KC1 KC2]. { apply (i_open _ _ _ _ O). right; left. eapply in_snd, L. }
    destruct (p_close H (s_os s) fd) as [r w]. cbn [fst snd] in *. subst r. eexists. split; [reflexivity|]. split; [apply wrap_small; [exact HB|lia]|]. split; [reflexivity|].
    assert (2 <? fd = true) as -> by (apply Z.ltb_lt; lia). exact KC2.
Qed.
Print Assumptions semihost_close_partial.

(** An orderly history: file A opened (host descriptor 3, handle 4), then closed. *)
Lemma orderly_open_A : exists s, open_A = Some s /\ orderly demo_host 32 code_flags get put (OnEBreak demo_host 32) start s [(4, 3); (2, 2); (1, 1); (0, 0)] [].
Proof.
  destruct open_A as [s|] eqn:E; [|exfalso; apply (f_equal a0_of) in E; vm_compute in E; discriminate E].
  exists s. split; [reflexivity|].
  assert (Q : s_a0 s = 4) by (apply (f_equal a0_of) in E; rewrite <- (eq_refl : a0_of (Some s) = s_a0 s), <- E; vm_compute; reflexivity).
  pose (s0 := before 32 boot SYS_OPEN [0x300; 4; 1] A).
  assert (O : orderly demo_host 32 code_flags get put (OnEBreak demo_host 32) start s0 [(2, 2); (1, 1); (0, 0)] []).
  { apply (o_program demo_host 32 code_flags get put (OnEBreak demo_host 32) start boot). apply o_init; [reflexivity|].
    intros x X. assert (x = 0 \/ x = 1 \/ x = 2) as [-> |[-> | ->]] by lia; reflexivity. }
  assert (M : marked (v_mem (get s0)) 0x100) by (repeat split; vm_compute; reflexivity).
  assert (R1 : 0 <= arg (v_mem (get s0)) (v_a1 (get s0)) (32 / 8) 1 < 2 ^ 31) by (vm_compute; split; congruence).
  assert (R2 : 0 <= arg (v_mem (get s0)) (v_a1 (get s0)) (32 / 8) 2 < 2 ^ 31) by (vm_compute; split; congruence).
  pose proof (o_open demo_host 32 code_flags get put (OnEBreak demo_host 32) start s0 _ _ 0x100 s O M eq_refl E R1 R2) as X.
  cbn [get v_a0] in X. rewrite Q in X. change (4 =? -1 mod 2 ^ 32) with false in X. cbn [get v_a0] in X.
  assert (F : open_fd demo_host 32 code_flags get s0 = 3) by (vm_compute; reflexivity). rewrite F in X. exact X.
Qed.
Example close_case : a0_of (call 32 open_A SYS_CLOSE [4] []) = 0 /\ option_map (fun s => map fst (d_fds (s_os s))) (call 32 open_A SYS_CLOSE [4] []) = Some [4; 0; 1; 2].
Proof. vm_compute; split; reflexivity. Qed.

(** A handle is not invalidated by closing it: what is written to it next goes to the file opened after it. *)
Theorem semihost_close_invalidates_refuted :
  let s1 := call 32 open_A SYS_CLOSE [4] [] in
  let s2 := call 32 s1 SYS_OPEN [0x300; 4; 1] B in
  let s3 := call 32 s2 SYS_WRITE [4; 0x300; 1] [90] in
  a0_of open_A = 4 /\ a0_of s1 = 0 /\ a0_of s2 = 5 /\ a0_of s3 <> 2 ^ 32 - 1 /\
  log_of s3 = [(101, [90])] /\ option_map (fun s => d_file (s_os s) 5) s2 = Some (Some 101).
Proof. vm_compute. repeat split; congruence. Qed.
Print Assumptions semihost_close_invalidates_refuted.

(** Closing a handle leaves the descriptor made for it open. *)
Theorem semihost_close_releases_refuted :
  let s1 := call 32 open_A SYS_CLOSE [4] [] in a0_of s1 = 0 /\ option_map (fun s => d_file (s_os s) 4) s1 = Some (Some 100).
Proof. vm_compute. split; reflexivity. Qed.
Print Assumptions semihost_close_releases_refuted.

(** After a handle is closed twice, SYS_OPEN returns a handle that is in use: handle 3 of the console is returned again. *)
Theorem semihost_handles_distinct_refuted :
  let s1 := call 32 open_A SYS_CLOSE [4] [] in
  let s2 := call 32 s1 SYS_OPEN [0x300; 4; 3] TT in
  let s3 := call 32 s2 SYS_CLOSE [4] [] in
  let s4 := call 32 s3 SYS_OPEN [0x300; 4; 3] TT in
  a0_of s1 = 0 /\ a0_of s2 = 3 /\ a0_of s3 = 0 /\ a0_of s4 = 3.
Proof. vm_compute. repeat split. Qed.
Print Assumptions semihost_handles_distinct_refuted.

(** ** C89 *)
(** Through a handle in use, SYS_SEEK (below 2^31), SYS_FLEN and SYS_ISTTY do what the specification says. *)
Theorem semihost_seek_flen_istty_partial : forall (W : Type) (H : posix W) (b : Z) (s : semi W) (live : list (Z * Z)) (closed : list Z) (a h fd : Z),
  (b = 32 \/ b = 64) /\ posix_ok H /\ orderly H b code_flags get put (OnEBreak H b) start s live closed /\
  marked (s_mem s) a /\ arg (s_mem s) (s_a1 s) (b / 8) 0 = h /\ In (h, fd) live ->
  In (s_a0 s) [SYS_SEEK; SYS_FLEN; SYS_ISTTY] -> (s_a0 s = SYS_SEEK -> 0 <= arg (s_mem s) (s_a1 s) (b / 8) 1 < 2 ^ 31) ->
  exists s', OnEBreak H b s a = Some s' /\ file_op H b (s_a0 s) fd (s_mem s) (s_a1 s) (s_os s) = Some (s_a0 s', s_mem s', s_os s').
Proof.
  intros W H b s live closed a h fd (HB & K & O & M & E & L) I R. apply (orderly_inv H b HB) in O; [|exact K]. destruct (live_range H _ _ _ _ _ K O L) as [RH _].
  pose proof (i_live _ _ _ _ O _ _ L) as F. rewrite <- (int_small _ RH), <- E in F. change (arg (s_mem s) (s_a1 s) (b / 8) 0) with (word b s (s_a1 s) 0) in F.
  cbn [In] in I. destruct I as [I|[I|[I|[]]]]; symmetry in I; rewrite I in *.
  - specialize (R eq_refl). rewrite (ebreak_marked H b s a (SysSeek H b) M) by (rewrite I; reflexivity). unfold SysSeek, ok, file_op. rewrite F. cbn [SYS_WRITE SYS_READ SYS_SEEK Z.eqb Pos.eqb].
    change (word b s (s_a1 s) 1) with (arg (s_mem s) (s_a1 s) (b / 8) 1). rewrite (int_small _ R). destruct (p_lseek _ _ _ _) as [r w]. destruct (r <? 0); eexists; (split; [reflexivity|]).
    + cbn [set_a0 set_errno set_os s_a0 s_mem s_os]. rewrite wrap_u64 by exact HB. reflexivity.
    + reflexivity.
  - rewrite (ebreak_marked H b s a (SysFlen H b) M) by (rewrite I; reflexivity). unfold SysFlen, ok, file_op. rewrite F. cbn [SYS_WRITE SYS_READ SYS_SEEK SYS_FLEN Z.eqb Pos.eqb].
    destruct (p_fstat _ _ _) as [[r sz] w]. destruct (r <? 0); eexists; (split; [reflexivity|]); cbn [set_a0 set_errno set_os s_a0 s_mem s_os]; rewrite wrap_u64 by exact HB; reflexivity.
  - rewrite (ebreak_marked H b s a (SysIsTty H b) M) by (rewrite I; reflexivity). unfold SysIsTty, ok, file_op. rewrite F. cbn [SYS_WRITE SYS_READ SYS_SEEK SYS_FLEN SYS_ISTTY Z.eqb Pos.eqb].
    destruct (p_isatty _ _ _) as [r w]. eexists; (split; [reflexivity|]). destruct (r =? 0); cbn [set_a0 set_errno set_os s_a0 s_mem s_os]; rewrite wrap_u64 by exact HB; reflexivity.
Qed.
Print Assumptions semihost_seek_flen_istty_partial.

(** SYS_WRITE hands the host exactly the bytes of the buffer; memory stays; a0 is the host's count (the number of bytes
    written, not of those not written). *)
Theorem semihost_write_partial : forall (W : Type) (H : posix W) (b : Z) (s : semi W) (live : list (Z * Z)) (closed : list Z) (a h fd : Z),
  (b = 32 \/ b = 64) /\ posix_ok H /\ orderly H b code_flags get put (OnEBreak H b) start s live closed /\
  marked (s_mem s) a /\ arg (s_mem s) (s_a1 s) (b / 8) 0 = h /\ In (h, fd) live ->
  s_a0 s = SYS_WRITE -> 0 <= arg (s_mem s) (s_a1 s) (b / 8) 2 < 2 ^ 31 ->
  exists s' r, OnEBreak H b s a = Some s' /\ file_op H b SYS_WRITE fd (s_mem s) (s_a1 s) (s_os s) = Some (r, s_mem s', s_os s') /\
    s_a0 s' = (fst (p_write H (s_os s) fd (bytes_at (s_mem s) (arg (s_mem s) (s_a1 s) (b / 8) 1) (Z.to_nat (arg (s_mem s) (s_a1 s) (b / 8) 2))))) mod 2 ^ b.
Proof.
  intros W H b s live closed a h fd (HB & K & O & M & E & L) I R. apply (orderly_inv H b HB) in O; [|exact K]. destruct (live_range H _ _ _ _ _ K O L) as [RH _].
  pose proof (i_live _ _ _ _ O _ _ L) as F. rewrite <- (int_small _ RH), <- E in F. change (arg (s_mem s) (s_a1 s) (b / 8) 0) with (word b s (s_a1 s) 0) in F.
  rewrite (ebreak_marked H b s a (SysWrite H b) M) by (rewrite I; reflexivity). unfold SysWrite, ok, file_op. rewrite F. cbn [SYS_WRITE Z.eqb Pos.eqb].
  change (word b s (s_a1 s) 1) with (arg (s_mem s) (s_a1 s) (b / 8) 1). change (word b s (s_a1 s) 2) with (arg (s_mem s) (s_a1 s) (b / 8) 2).
  rewrite (int_small _ R). assert (arg (s_mem s) (s_a1 s) (b / 8) 2 <? 0 = false) as -> by (apply Z.ltb_ge; lia).
  destruct (p_write _ _ _ _) as [r w]. destruct (r <? 0); eexists; eexists; (split; [reflexivity|]); (split; [reflexivity|]); cbn [set_a0 set_errno set_os s_a0 fst]; apply wrap_u64, HB.
Qed.
Print Assumptions semihost_write_partial.

(** SYS_READ: a0 is the host's count.  Nothing outside the buffer changes, the bytes read are at its start; if it was
    filled, memory is as specified; if the read failed, memory stays. *)
Theorem semihost_read_partial : forall (W : Type) (H : posix W) (b : Z) (s : semi W) (live : list (Z * Z)) (closed : list Z) (a h fd : Z) (r : Z) (buf : list Z) (w : W),
  (b = 32 \/ b = 64) /\ posix_ok H /\ orderly H b code_flags get put (OnEBreak H b) start s live closed /\
  marked (s_mem s) a /\ arg (s_mem s) (s_a1 s) (b / 8) 0 = h /\ In (h, fd) live ->
  s_a0 s = SYS_READ -> 0 <= arg (s_mem s) (s_a1 s) (b / 8) 2 < 2 ^ 31 ->
  p_read H (s_os s) fd (arg (s_mem s) (s_a1 s) (b / 8) 2) = (r, buf, w) ->
  exists s', OnEBreak H b s a = Some s' /\ s_os s' = w /\ s_a0 s' = r mod 2 ^ b /\
    (forall x, s_mem s' x = if (0 <=? r) && (arg (s_mem s) (s_a1 s) (b / 8) 1 <=? x) && (x <? arg (s_mem s) (s_a1 s) (b / 8) 1 + arg (s_mem s) (s_a1 s) (b / 8) 2)
                            then nth (Z.to_nat (x - arg (s_mem s) (s_a1 s) (b / 8) 1)) buf 0 else s_mem s x) /\
    (r = arg (s_mem s) (s_a1 s) (b / 8) 2 \/ r < 0 -> exists v m, file_op H b SYS_READ fd (s_mem s) (s_a1 s) (s_os s) = Some (v, m, w) /\ forall x, m x = s_mem s' x).
Proof.
  intros W H b s live closed a h fd r buf w (HB & K & O & M & E & L) I R P. apply (orderly_inv H b HB) in O; [|exact K]. destruct (live_range H _ _ _ _ _ K O L) as [RH _].
  pose proof (i_live _ _ _ _ O _ _ L) as F. rewrite <- (int_small _ RH), <- E in F. change (arg (s_mem s) (s_a1 s) (b / 8) 0) with (word b s (s_a1 s) 0) in F.
  rewrite (ebreak_marked H b s a (SysRead H b) M) by (rewrite I; reflexivity). unfold SysRead, ok, file_op. rewrite F. cbn [SYS_WRITE SYS_READ Z.eqb Pos.eqb].
  change (word b s (s_a1 s) 1) with (arg (s_mem s) (s_a1 s) (b / 8) 1). change (word b s (s_a1 s) 2) with (arg (s_mem s) (s_a1 s) (b / 8) 2).
  destruct (K (s_os s)) as (_ & _ & _ & _ & _ & KR & _). destruct (KR fd (arg (s_mem s) (s_a1 s) (b / 8) 2)) as (KR1 & KR2 & _ & _); [lia|]. rewrite P in KR1, KR2. cbn [fst snd] in KR1, KR2.
  set (n := arg (s_mem s) (s_a1 s) (b / 8) 2) in *. set (p := arg (s_mem s) (s_a1 s) (b / 8) 1) in *.
  rewrite (int_small _ R). assert (n <? 0 = false) as -> by (apply Z.ltb_ge; lia). rewrite P.
  destruct (Z.ltb_spec r 0); eexists; (split; [reflexivity|]); cbn [set_a0 set_errno set_mem set_os s_os s_a0 s_mem]; (split; [reflexivity|]); (split; [apply wrap_u64, HB|]).
  - split. { intros x. assert (0 <=? r = false) as -> by (apply Z.leb_gt; lia). reflexivity. }
    intros _. eexists. eexists. split; [reflexivity|]. intros x. replace (Z.to_nat r) with 0%nat by lia. cbn [firstn]. apply put_bytes_out. cbn [length]. lia.
  - split. { intros x. assert (0 <=? r = true) as -> by (apply Z.leb_le; lia). cbn [andb]. unfold put_bytes. rewrite KR2. rewrite Z2Nat.id by lia. reflexivity. }
    intros [-> |]; [|lia]. eexists. eexists. split; [reflexivity|]. intros x. rewrite <- KR2, firstn_all. reflexivity.
Qed.
Print Assumptions semihost_read_partial.
Example file_ops_case : a0_of (call 32 open_A SYS_SEEK [4; 5] []) = 0 /\ a0_of (call 32 open_A SYS_FLEN [4] []) = 12 /\ a0_of (call 32 open_A SYS_ISTTY [1] []) = 1 /\
  log_of (call 32 open_A SYS_WRITE [4; 0x300; 2] [70; 71]) = [(100, [70; 71])] /\ option_map (fun s => map (s_mem s) [0x400; 0x401]) (call 32 open_A SYS_READ [4; 0x400; 1] []) = Some [7; 0].
Proof. vm_compute. repeat split. Qed.

(** A write of all three bytes returns 3, not 0. *)
Theorem semihost_write_result_refuted :
  let s := call 32 open_A SYS_WRITE [4; 0x300; 3] [70; 71; 72] in
  a0_of s = 3 /\ log_of s = [(100, [70; 71; 72])] /\
  option_map (fun t => fst (fst t)) (file_op demo_host 32 SYS_WRITE 3 (image 32 [4; 0x300; 3] [70; 71; 72]) 0x200 (match open_A with Some s => s_os s | None => demo0 end)) = Some 0.
Proof. vm_compute. repeat split. Qed.
Print Assumptions semihost_write_result_refuted.

(** A read of one byte into a buffer of four returns 1, not 3, and overwrites the other three. *)
Theorem semihost_read_result_refuted :
  let s := call 32 open_A SYS_READ [4; 0x300; 4] [1; 2; 3; 4] in
  a0_of s = 1 /\ option_map (fun s => map (s_mem s) [0x300; 0x301; 0x302; 0x303]) s = Some [7; 0; 0; 0] /\
  option_map (fun t => (fst (fst t), map (snd (fst t)) [0x300; 0x301; 0x302; 0x303])) (file_op demo_host 32 SYS_READ 3 (image 32 [4; 0x300; 4] [1; 2; 3; 4]) 0x200 (match open_A with Some s => s_os s | None => demo0 end)) = Some (3, [7; 2; 3; 4]).
Proof. vm_compute. repeat split. Qed.
Print Assumptions semihost_read_result_refuted.

(** SYS_SEEK beyond 2^31 on RV64 seeks elsewhere: offset 2^32 + 5 goes to 5, 2^31 fails. *)
Theorem semihost_seek_large_refuted :
  let s0 := before 64 boot SYS_SEEK [1; 2 ^ 31] [] in
  a0_of (call 64 (Some boot) SYS_SEEK [1; 2 ^ 31] []) = 2 ^ 64 - 1 /\
  option_map (fun t => fst (fst t)) (file_op demo_host 64 SYS_SEEK 1 (s_mem s0) (s_a1 s0) demo0) = Some 0.
Proof. vm_compute. repeat split. Qed.
Print Assumptions semihost_seek_large_refuted.

(** SYS_GET_CMDLINE: a buffer too short gives -1 and nothing else; otherwise, if block and buffer do not overlap, memory
    is as specified.  a0 is the length where the specification says 0. *)
Theorem semihost_cmdline_partial : forall (W : Type) (H : posix W) (b : Z) (s : semi W) (a : Z),
  b = 32 \/ b = 64 -> byte_mem (s_mem s) -> marked (s_mem s) a -> s_a0 s = SYS_GET_CMDLINE -> Forall (fun c => 0 <= c < 256) (s_cmd s) ->
  (s_a1 s + 2 * (b / 8) <= arg (s_mem s) (s_a1 s) (b / 8) 0 \/ arg (s_mem s) (s_a1 s) (b / 8) 0 + Z.of_nat (length (s_cmd s)) + 1 <= s_a1 s) ->
  exists s', OnEBreak H b s a = Some s' /\ s_os s' = s_os s /\
    (forall x, s_mem s' x = snd (cmdline_op b (s_cmd s) (s_mem s) (s_a1 s)) x) /\
    s_a0 s' = (if arg (s_mem s) (s_a1 s) (b / 8) 1 <=? Z.of_nat (length (s_cmd s)) then -1 else Z.of_nat (length (s_cmd s))) mod 2 ^ b.
Proof.
  intros W H b s a HB BM M I CB NO. rewrite (ebreak_marked H b s a (SysGetCmdline b) M) by (rewrite I; reflexivity). unfold SysGetCmdline, ok, cmdline_op.
  change (word b s (s_a1 s) 1) with (arg (s_mem s) (s_a1 s) (b / 8) 1). change (word b s (s_a1 s) 0) with (arg (s_mem s) (s_a1 s) (b / 8) 0).
  set (c := arg (s_mem s) (s_a1 s) (b / 8) 0) in *. set (n := Z.of_nat (length (s_cmd s))) in *.
  destruct (_ <=? n).
  - eexists. split; [reflexivity|]. split; [reflexivity|]. split; [reflexivity|]. cbn [set_a0 s_a0]. apply wrap_u64, HB.
  - eexists. split; [reflexivity|]. split; [reflexivity|]. split; [|reflexivity]. intros x. cbn [set_a0 set_mem s_mem snd].
    set (m1 := put_bytes (s_mem s) c (s_cmd s ++ [0])).
    assert (LN : Z.of_nat (length (s_cmd s ++ [0])) = n + 1) by (rewrite app_length; cbn [length]; lia).
    assert (NN : Z.of_nat (Z.to_nat (b / 8)) = b / 8) by (apply Z2Nat.id; destruct HB as [-> | ->]; cbn; lia).
    assert (B8 : 0 < b / 8) by (destruct HB as [-> | ->]; cbn; lia).
    assert (BM1 : byte_mem m1).
    { intros y. unfold m1, put_bytes. destruct ((c <=? y) && (y <? c + Z.of_nat (length (s_cmd s ++ [0])))); [|apply BM].
      destruct (nth_in_or_default (Z.to_nat (y - c)) (s_cmd s ++ [0]) 0) as [Y| ->]; [|lia]. apply in_app_or in Y as [Y|[<-|[]]]; [|lia]. rewrite Forall_forall in CB. apply CB, Y. }
    assert (E : load_le m1 (s_a1 s) (Z.to_nat (b / 8)) = c).
    { transitivity (load_le (s_mem s) (s_a1 s) (Z.to_nat (b / 8))); [|unfold c, arg; f_equal; lia]. apply load_le_ext. intros y Y. apply put_bytes_out. rewrite LN. lia. }
    assert (Q : forall y, store_le m1 (s_a1 s) (Z.to_nat (b / 8)) c y = m1 y) by (intros y; rewrite <- E; apply store_load_back, BM1).
    unfold store_le at 1 3. rewrite Q. reflexivity.
Qed.
Print Assumptions semihost_cmdline_partial.
Example cmdline_case : option_map (fun s => map (s_mem s) [0x400; 0x401; 0x402; 0x403; 0x204]) (call 32 (Some boot) SYS_GET_CMDLINE [0x400; 80] []) = Some [97; 32; 98; 0; 3].
Proof. vm_compute. reflexivity. Qed.

(** The call succeeds and a0 is 3 where the specification says 0. *)
Theorem semihost_cmdline_result_refuted :
  a0_of (call 32 (Some boot) SYS_GET_CMDLINE [0x400; 80] []) = 3 /\ fst (cmdline_op 32 (s_cmd boot) (image 32 [0x400; 80] []) 0x200) = 0.
Proof. vm_compute. split; reflexivity. Qed.
Print Assumptions semihost_cmdline_result_refuted.

(** SYS_OPEN in mode 0 opens the named file for reading; with any other mode the host is told O_CREAT (64) alone: nothing
    can be written to the file, and mode 1 ("rb") creates it. *)
Theorem semihost_open_read_partial : forall (W : Type) (H : posix W) (b : Z) (s : semi W) (a : Z),
  b = 32 \/ b = 64 -> marked (s_mem s) a -> s_a0 s = SYS_OPEN -> arg (s_mem s) (s_a1 s) (b / 8) 1 = 0 -> 0 <= arg (s_mem s) (s_a1 s) (b / 8) 2 < 2 ^ 31 ->
  name_arg b (s_mem s) (s_a1 s) <> [58; 116; 116] ->
  exists s', OnEBreak H b s a = Some s' /\ s_mem s' = s_mem s /\
    let (fd, w) := p_open H (s_os s) (c_string (name_arg b (s_mem s) (s_a1 s))) (open_flags 0) 0 in
    s_os s' = snd (p_dup H w fd) /\ s_a0 s' = (fst (p_dup H w fd)) mod 2 ^ b.
Proof.
  intros W H b s a HB M I A0 R N. rewrite (open_eq H b HB s a M I). cbv zeta. change (word b s (s_a1 s) 1) with (arg (s_mem s) (s_a1 s) (b / 8) 1). change (word b s (s_a1 s) 2) with (arg (s_mem s) (s_a1 s) (b / 8) 2).
  rewrite A0, (int_small _ R). assert (arg (s_mem s) (s_a1 s) (b / 8) 2 <? 0 = false) as -> by (apply Z.ltb_ge; lia).
  fold (name_arg b (s_mem s) (s_a1 s)). change (bytes_at (s_mem s) (word b s (s_a1 s) 0) (Z.to_nat (arg (s_mem s) (s_a1 s) (b / 8) 2))) with (name_arg b (s_mem s) (s_a1 s)).
  destruct (list_eq_dec _ _ _); [contradiction|]. change (int_of 0) with 0. change (code_flags 0) with 0. change (open_flags 0) with 0.
  destruct (p_open _ _ _ _ _) as [fd w]. destruct (p_dup H w fd) as [h w2]. eexists. split; [reflexivity|]. destruct (h <? 0); (split; [reflexivity|]); split; reflexivity.
Qed.
Print Assumptions semihost_open_read_partial.
Example open_read_case : option_map (fun s => d_opens (s_os s)) (call 32 (Some boot) SYS_OPEN [0x300; 0; 1] A) = Some [(A, 0, 0)]. Proof. vm_compute. reflexivity. Qed.
Theorem semihost_open_flags_refuted : forall mode, 1 <= mode <= 11 -> exists s', call 32 (Some boot) SYS_OPEN [0x300; mode; 1] A = Some s' /\
  d_opens (s_os s') = [(A, 64, mode)] /\ open_flags mode <> 64.
Proof.
  intros mode R. assert (mode = 1 \/ mode = 2 \/ mode = 3 \/ mode = 4 \/ mode = 5 \/ mode = 6 \/ mode = 7 \/ mode = 8 \/ mode = 9 \/ mode = 10 \/ mode = 11) as X by lia.
  assert (G : option_map (fun s => d_opens (s_os s)) (call 32 (Some boot) SYS_OPEN [0x300; mode; 1] A) = Some [(A, 64, mode)]).
  { repeat destruct X as [-> |X]; [..|rewrite X]; vm_compute; reflexivity. }
  destruct (call 32 _ _ _ _) as [s'|]; [|discriminate G]. exists s'. split; [reflexivity|]. injection G as G. split; [exact G|].
  repeat destruct X as [-> |X]; [..|rewrite X]; vm_compute; discriminate.
Qed.
Print Assumptions semihost_open_flags_refuted.

(** SYS_HEAPINFO: on RV32, with the block below 2^31, its four words become 0 (unknown) and nothing else changes. *)
Theorem semihost_heapinfo_partial : forall (W : Type) (H : posix W) (s : semi W) (a : Z),
  marked (s_mem s) a -> s_a0 s = SYS_HEAPINFO -> let q := arg (s_mem s) (s_a1 s) 4 0 in 0 <= q < 2 ^ 31 ->
  exists s', OnEBreak H 32 s a = Some s' /\ s_a0 s' = 0 /\ s_os s' = s_os s /\ forall x, s_mem s' x = if (q <=? x) && (x <? q + 16) then 0 else s_mem s x.
Proof.
  intros W H s a M I q R. rewrite (ebreak_marked H 32 s a (SysHeapInfo 32) M) by (rewrite I; reflexivity). eexists. split; [reflexivity|]. split; [reflexivity|]. split; [reflexivity|].
  intros x. cbn [set_a0 set_mem s_mem]. change (word 32 s (s_a1 s) 0) with q. rewrite (int_small _ R). unfold u64, wrap. rewrite Z.mod_small by (change (2 ^ 64) with (2 ^ 31 * 2 ^ 33); lia).
  unfold put_bytes. change (Z.of_nat (length (repeat 0 16))) with 16. destruct (_ && _); [|reflexivity]. generalize (Z.to_nat (x - q)). intros k. do 17 (destruct k; [reflexivity|]). destruct k; reflexivity.
Qed.
Print Assumptions semihost_heapinfo_partial.
Example heapinfo_case : option_map (fun s => map (s_mem s) [0x2ff; 0x300; 0x30f; 0x310]) (call 32 (Some boot) SYS_HEAPINFO [0x300] (repeat 1 20)) = Some [0; 0; 0; 1]. Proof. vm_compute. reflexivity. Qed.
(** A block at 0x80000000 is not written (address 0xffffffff80000000 is); on RV64 only half of the block is. *)
Theorem semihost_heapinfo_refuted :
  (exists m s', marked m 0x100 /\ m 0x80000000 = 5 /\ arg m 0x200 4 0 = 0x80000000 /\
    OnEBreak demo_host 32 (put boot (View m SYS_HEAPINFO 0x200 demo0)) 0x100 = Some s' /\ s_a0 s' = 0 /\ s_mem s' 0x80000000 = 5) /\
  option_map (fun s => map (s_mem s) [0x30f; 0x310; 0x31f]) (call 64 (Some boot) SYS_HEAPINFO [0x300] (repeat 1 32)) = Some [0; 1; 1].
Proof.
  split; [|vm_compute; reflexivity].
  pose (m := put_bytes (image 32 [0x80000000] []) 0x80000000 [5]). exists m.
  eexists. split; [repeat split; vm_compute; reflexivity|]. split; [vm_compute; reflexivity|]. split; [vm_compute; reflexivity|]. split; [|split].
  - rewrite (ebreak_marked demo_host 32 _ _ (SysHeapInfo 32)); [reflexivity| |reflexivity]. repeat split; vm_compute; reflexivity.
  - vm_compute; reflexivity.
  - vm_compute; reflexivity.
Qed.
Print Assumptions semihost_heapinfo_refuted.

(** SYS_ERRNO after a failing SYS_SEEK, SYS_FLEN, SYS_READ or SYS_WRITE is the host's errno of that failure. *)
Theorem semihost_errno_partial : forall (W : Type) (H : posix W) (b : Z) (s : semi W) (live : list (Z * Z)) (closed : list Z) (a h fd : Z) (s' : semi W),
  (b = 32 \/ b = 64) /\ posix_ok H /\ orderly H b code_flags get put (OnEBreak H b) start s live closed /\
  marked (s_mem s) a /\ arg (s_mem s) (s_a1 s) (b / 8) 0 = h /\ In (h, fd) live ->
  In (s_a0 s) [SYS_SEEK; SYS_FLEN; SYS_READ; SYS_WRITE] -> OnEBreak H b s a = Some s' ->
  (s_a0 s = SYS_FLEN -> 0 <= snd (fst (p_fstat H (s_os s) fd)) < 2 ^ 31) ->
  s_a0 s' = -1 mod 2 ^ b -> forall a' m p s'', marked m a' ->
  OnEBreak H b (put s' (View m SYS_ERRNO p (s_os s'))) a' = Some s'' -> s_a0 s'' = (p_errno H (s_os s')) mod 2 ^ b.
Proof.
  intros W H b s live closed a h fd s' (HB & K & O & M & E & L) I X SZ Q a' m p s'' M' X'. apply (orderly_inv H b HB) in O; [|exact K]. destruct (live_range H _ _ _ _ _ K O L) as [RH _].
  pose proof (i_live _ _ _ _ O _ _ L) as F. rewrite <- (int_small _ RH), <- E in F. change (arg (s_mem s) (s_a1 s) (b / 8) 0) with (word b s (s_a1 s) 0) in F.
  assert (G : s_errno s' = p_errno H (s_os s')).
  { destruct (K (s_os s)) as (_ & _ & _ & _ & _ & KR & KW & _).
    assert (P31 : forall v, 0 <= v < 2 ^ 31 -> wrap b (u64 v) <> -1 mod 2 ^ b) by (intros v V; rewrite (wrap_u64 b HB), (wrap_small b HB v V); apply small_not_m1; assumption).
    cbn [In] in I. destruct I as [I|[I|[I|[I|[]]]]]; symmetry in I.
    - rewrite (ebreak_marked H b s a (SysSeek H b) M) in X by (rewrite I; reflexivity). unfold SysSeek, ok in X. rewrite F in X. destruct (p_lseek _ _ _ _) as [r w]. destruct (r <? 0); injection X as <-; [reflexivity|].
      exfalso. revert Q. apply (P31 0). lia.
    - rewrite (ebreak_marked H b s a (SysFlen H b) M) in X by (rewrite I; reflexivity). unfold SysFlen, ok in X. rewrite F in X. specialize (SZ I). destruct (p_fstat _ _ _) as [[r sz] w]. destruct (r <? 0); injection X as <-; [reflexivity|].
      exfalso. revert Q. apply (P31 sz), SZ.
    - rewrite (ebreak_marked H b s a (SysRead H b) M) in X by (rewrite I; reflexivity). unfold SysRead, ok in X. rewrite F in X.
      pose proof (sgn_range 32 (word b s (s_a1 s) 2) ltac:(lia)) as SR. fold (int_of (word b s (s_a1 s) 2)) in SR. change (2 ^ (32 - 1)) with (2 ^ 31) in SR.
      destruct (Z.ltb_spec (int_of (word b s (s_a1 s) 2)) 0) as [|LN]; [discriminate|]. destruct (KR fd _ LN) as (KR1 & _).
      destruct (p_read _ _ _ _) as [[r bu] w]. cbn [fst] in KR1. destruct (Z.ltb_spec r 0); injection X as <-; [reflexivity|]. exfalso. revert Q. apply (P31 r). lia.
    - rewrite (ebreak_marked H b s a (SysWrite H b) M) in X by (rewrite I; reflexivity). unfold SysWrite, ok in X. rewrite F in X.
      pose proof (sgn_range 32 (word b s (s_a1 s) 2) ltac:(lia)) as SR. fold (int_of (word b s (s_a1 s) 2)) in SR. change (2 ^ (32 - 1)) with (2 ^ 31) in SR.
      destruct (Z.ltb_spec (int_of (word b s (s_a1 s) 2)) 0) as [|LN]; [discriminate|]. destruct (KW fd (bytes_at (s_mem s) (word b s (s_a1 s) 1) (Z.to_nat (int_of (word b s (s_a1 s) 2))))) as (KW1 & _).
      rewrite bytes_at_length in KW1.
      destruct (p_write _ _ _ _) as [r w]. cbn [fst] in KW1. injection X as <-. destruct (Z.ltb_spec r 0); [reflexivity|]. exfalso. revert Q. apply (P31 r). lia. }
  rewrite (ebreak_marked H b _ _ (fun s _ => SysErrno s)) in X'; [|exact M'|reflexivity]. injection X' as <-. cbn [set_a0 s_a0 put s_errno]. rewrite (wrap_u64 b HB), G. reflexivity.
Qed.
Print Assumptions semihost_errno_partial.
Example errno_case : a0_of (call 64 (Some boot) SYS_SEEK [1; 2 ^ 32 - 1] []) = 2 ^ 64 - 1 /\ a0_of (call 64 (call 64 (Some boot) SYS_SEEK [1; 2 ^ 32 - 1] []) SYS_ERRNO [] []) = 9.
Proof. vm_compute. split; reflexivity. Qed.

(** A successful SYS_CLOSE sets the error number. *)
Theorem semihost_errno_close_refuted :
  a0_of (call 32 open_A SYS_ERRNO [] []) = 0 /\ a0_of (call 32 open_A SYS_CLOSE [4] []) = 0 /\ a0_of (call 32 (call 32 open_A SYS_CLOSE [4] []) SYS_ERRNO [] []) = 9.
Proof. vm_compute. repeat split. Qed.
Print Assumptions semihost_errno_close_refuted.
