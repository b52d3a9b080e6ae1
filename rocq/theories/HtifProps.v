(** C90: the host-target interface. *)
From Coq Require Import ZArith Bool List Lia.
From Verif Require Import Bits Memory SemSpec HtifSpec SemModel HtifModel SemProofs.
Import ListNotations.
Local Open Scope Z_scope.

Lemma pending_payload v : 0 <= v < 2 ^ 64 -> (Z.land (Z.shiftr v 56) 0xff =? 0) && (Z.land (Z.shiftr v 48) 0xff =? 0) = (v <? 2 ^ 48).
Proof.
  intros R. change 0xff with (Z.ones 8). rewrite !Z.land_ones, !Z.shiftr_div_pow2 by lia.
  assert (A : v / 2 ^ 56 < 2 ^ 8) by (apply Z.div_lt_upper_bound; [reflexivity|]; change (2 ^ 56 * 2 ^ 8) with (2 ^ 64); lia).
  assert (B : 0 <= v / 2 ^ 56) by (apply Z.div_pos; [lia|reflexivity]). rewrite (Z.mod_small (v / 2 ^ 56)) by lia.
  destruct (Z.ltb_spec v (2 ^ 48)) as [L|L].
  - rewrite (Z.div_small v (2 ^ 56)) by (split; [lia|]; apply (Z.lt_trans _ _ _ L); reflexivity). rewrite (Z.div_small v (2 ^ 48)) by lia. reflexivity.
  - destruct (Z.eqb_spec (v / 2 ^ 56) 0) as [E|]; [|reflexivity]. cbn [andb]. apply Z.eqb_neq.
    assert (v < 2 ^ 56) by (apply Z.div_small_iff in E; [|discriminate]; lia).
    assert (C : v / 2 ^ 48 < 2 ^ 8) by (apply Z.div_lt_upper_bound; [reflexivity|]; change (2 ^ 48 * 2 ^ 8) with (2 ^ 56); lia).
    assert (D : 1 <= v / 2 ^ 48) by (apply Z.div_le_lower_bound; [reflexivity|lia]). rewrite Z.mod_small by lia. lia.
Qed.
Lemma odd_land v : negb (Z.land v 1 =? 0) = Z.odd v.
Proof. change 1 with (Z.ones 1). rewrite Z.land_ones by lia. change (2 ^ 1) with 2. rewrite Zmod_odd. now destruct (Z.odd v). Qed.
Lemma load8_range m a : byte_mem m -> 0 <= load_le m a 8 < 2 ^ 64. Proof. intros B. apply (load_le_range m a 8 B). Qed.

(** What a store to the watched byte does. *)
Lemma event_eq {W} (H : hposix W) (s : htif W) address size : byte_mem (t_mem s) -> 0 <= address -> 0 < size -> address + size <= 2 ^ 64 ->
  StoreEvent H s address size =
  if (t_ready s <? address) || (address + size - 1 <? t_ready s) then Some s else
  let p := load_le (t_mem s) (t_tohost s) 8 in
  if negb (t_mem s (t_ready s) =? 1) then Some s else if negb (p <? 2 ^ 48) then Some s else
  if Z.odd p then Some (upd s (t_mem s) (t_fds s) (t_os s) (if t_halt s then 1 else 0) 0) else
  match syscall H s p with
  | None => None | Some (_, s', true) => Some s'
  | Some (r, s', false) => Some (upd s' (respond (t_mem s') p (t_from s') (wrap 64 r)) (t_fds s') (t_os s') 0 0) end.
Proof.
  intros B A S T. unfold StoreEvent. replace (wrap 64 (address + size - 1)) with (address + size - 1) by (symmetry; apply Z.mod_small; lia).
  destruct (_ || _); [reflexivity|]. cbv zeta. destruct (negb (t_mem s (t_ready s) =? 1)); [reflexivity|].
  rewrite <- negb_andb, pending_payload by (apply load8_range, B). rewrite odd_land. reflexivity.
Qed.

(** ** The examples' machine *)
(** Ready byte at 0x1000, payload at 0x1008, response at 0x1010; the block [args] at 0x2000 and [str] at 0x3000. *)
Definition himage (args str : list Z) : mem :=
  let m := put_bytes (fun _ => 0) 0x3000 str in
  let m := fold_left (fun m p => store_le m (0x2000 + 8 * Z.of_nat (fst p)) 8 (snd p)) (combine (seq 0 (length args)) args) m in
  store_le (store_le m 0x1000 1 1) 0x1008 8 0x2000.
Definition hstart (m : mem) : htif (list (Z * Z * list Z)) :=
  {| t_mem := m; t_fds := htif_fds; t_os := []; t_ready := 0x1000; t_tohost := 0x1008; t_from := 0x1010; t_halt := true; t_error := false; t_halts := 0; t_errors := 0 |}.
Definition hcall (args str : list Z) := StoreEvent hdemo (hstart (himage args str)) 0x1000 1.
Definition seen (s : option (htif (list (Z * Z * list Z)))) := option_map (fun s => (load_le (t_mem s) 0x2000 8, t_mem s 0x1010, t_os s, t_halts s)) s.

Example hdemo_ok : hposix_ok hdemo.
Proof.
  intros w. cbn [hdemo h_read h_pread h_lseek h_write h_pwrite fst snd].
  assert (F : forall (n : Z) (c d : Z), 0 <= n -> length (firstn (Z.to_nat n) (c :: repeat d (Z.to_nat n))) = Z.to_nat n) by (intros n c d K; rewrite firstn_length; cbn [length]; rewrite repeat_length; lia).
  split; [intros fd n K; split; [destruct (fd =? -1); lia|apply F, K]|]. split; [intros fd n o K; split; [destruct (fd =? -1); lia|apply F, K]|]. repeat split; reflexivity.
Qed.

(** A store that does not cover the ready byte, a ready byte that is not 1 and a payload for another device change nothing. *)
Theorem htif_not_pending_nothing : forall (W : Type) (H : hposix W) (s : htif W) (address size : Z),
  byte_mem (t_mem s) -> 0 <= address -> 0 < size -> address + size <= 2 ^ 64 ->
  ~ (address <= t_ready s < address + size /\ pending (t_mem s) (t_ready s) (t_tohost s)) ->
  StoreEvent H s address size = Some s.
Proof.
  intros W H s address size B A S T N. rewrite (event_eq H s address size B A S T). unfold pending in N. pose proof (load8_range _ (t_tohost s) B) as R.
  destruct (Z.ltb_spec (t_ready s) address); [reflexivity|]. destruct (Z.ltb_spec (address + size - 1) (t_ready s)); [reflexivity|]. cbn [orb]. cbv zeta.
  destruct (Z.eqb_spec (t_mem s (t_ready s)) 1); [|reflexivity]. cbn [negb]. destruct (Z.ltb_spec (load_le (t_mem s) (t_tohost s) 8) (2 ^ 48)); [|reflexivity]. exfalso. apply N. lia.
Qed.
Print Assumptions htif_not_pending_nothing.
Example not_pending_case : seen (StoreEvent hdemo (hstart (himage [NR_write; 1; 0x3000; 2] [65; 66])) 0x1001 4) = Some (NR_write, 0, [], 0).
Proof. vm_compute. reflexivity. Qed.

(** An odd payload halts: the halt callback runs once and nothing else happens. *)
Theorem htif_halt : forall (W : Type) (H : hposix W) (s : htif W) (address size : Z),
  byte_mem (t_mem s) -> 0 <= address -> 0 < size -> address + size <= 2 ^ 64 ->
  address <= t_ready s < address + size -> pending (t_mem s) (t_ready s) (t_tohost s) -> Z.odd (load_le (t_mem s) (t_tohost s) 8) = true ->
  exists s', StoreEvent H s address size = Some s' /\ t_halts s' = t_halts s + (if t_halt s then 1 else 0) /\
    t_mem s' = t_mem s /\ t_os s' = t_os s /\ t_fds s' = t_fds s.
Proof.
  intros W H s address size B A S T C (P1 & P2) O. rewrite (event_eq H s address size B A S T). cbv zeta.
  assert (t_ready s <? address = false) as -> by (apply Z.ltb_ge; lia). assert (address + size - 1 <? t_ready s = false) as -> by (apply Z.ltb_ge; lia).
  rewrite P1, O. assert (load_le (t_mem s) (t_tohost s) 8 <? 2 ^ 48 = true) as -> by (apply Z.ltb_lt; lia). cbn [orb negb Z.eqb Pos.eqb].
  eexists. split; [reflexivity|]. repeat split; reflexivity.
Qed.
Print Assumptions htif_halt.
Example halt_case : option_map t_halts (StoreEvent hdemo (hstart (store_le (himage [] []) 0x1008 8 1)) 0x1000 1) = Some 1. Proof. vm_compute. reflexivity. Qed.

Definition requested {W} (s : htif W) (address size p : Z) : Prop :=
  byte_mem (t_mem s) /\ 0 <= address /\ 0 < size /\ address + size <= 2 ^ 64 /\ address <= t_ready s < address + size /\
  pending (t_mem s) (t_ready s) (t_tohost s) /\ load_le (t_mem s) (t_tohost s) 8 = p /\ Z.odd p = false.
Lemma requested_eq {W} (H : hposix W) (s : htif W) address size p : requested s address size p -> StoreEvent H s address size =
  match syscall H s p with
  | None => None | Some (_, s', true) => Some s'
  | Some (r, s', false) => Some (upd s' (respond (t_mem s') p (t_from s') (wrap 64 r)) (t_fds s') (t_os s') 0 0) end.
Proof.
  intros (B & A & S & T & C & (P1 & P2) & E & O). rewrite (event_eq H s address size B A S T). cbv zeta.
  assert (t_ready s <? address = false) as -> by (apply Z.ltb_ge; lia). assert (address + size - 1 <? t_ready s = false) as -> by (apply Z.ltb_ge; lia).
  rewrite P1. assert (load_le (t_mem s) (t_tohost s) 8 <? 2 ^ 48 = true) as -> by (apply Z.ltb_lt; lia). rewrite E, O. reflexivity.
Qed.

(** lseek, read, write, pread and pwrite on a descriptor of the map do what the specification says, with buffers below 2^31
    bytes, and the response follows. *)
Theorem htif_fd_call : forall (W : Type) (H : hposix W) (s : htif W) (address size p fd : Z) (r : Z) (m : mem) (w : W),
  hposix_ok H -> requested s address size p -> In (dw (t_mem s) p 0) [NR_lseek; NR_read; NR_write; NR_pread; NR_pwrite] ->
  find (t_fds s) (sgn 32 (dw (t_mem s) p 1)) = Some fd -> (dw (t_mem s) p 0 <> NR_lseek -> dw (t_mem s) p 3 < 2 ^ 31) ->
  fd_call H fd (t_mem s) p (t_os s) = Some (r, m, w) ->
  exists s', StoreEvent H s address size = Some s' /\ t_os s' = w /\ t_fds s' = t_fds s /\ t_halts s' = t_halts s /\
    forall x, t_mem s' x = respond m p (t_from s) (r mod 2 ^ 64) x.
Proof.
  intros W H s address size p fd r m w K Q I F LN C. rewrite (requested_eq H _ _ _ _ Q). destruct Q as (B & _).
  pose proof (load8_range (t_mem s) (p + 8 * 3) B) as R3.
  assert (SR : forall v n, n < 2 ^ 31 -> -1 <= v <= n -> sgn 32 v = v) by (intros v n L V; apply sgn_id; [lia|]; change (2 ^ (32 - 1)) with (2 ^ 31); lia).
  assert (FS : forall M P v l x, put_bytes M P (firstn (Z.to_nat v) l) x = store_read M P v l x).
  { intros M P v l x. unfold store_read. destruct (Z.ltb_spec 0 v); [reflexivity|]. replace (Z.to_nat v) with 0%nat by lia. apply put_bytes_out. cbn [firstn length]. lia. }
  assert (RE : forall m1 m2 q1 q2 v x, (forall y, m1 y = m2 y) -> respond m1 q1 q2 v x = respond m2 q1 q2 v x) by (intros m1 m2 q1 q2 v x E; unfold respond, store_le; rewrite E; reflexivity).
  destruct (K (t_os s)) as (KR & KP & _). specialize (KR fd (load_le (t_mem s) (p + 8 * 3) 8)). specialize (KP fd (load_le (t_mem s) (p + 8 * 3) 8) (sgn 64 (load_le (t_mem s) (p + 8 * 4) 8))).
  unfold fd_call, sdw, dw in *. unfold syscall, host_fd, allocate. 
  cbn [In] in I. destruct I as [I|[I|[I|[I|[I|[]]]]]]; rewrite <- I in *; cbv [NR_lseek NR_read NR_write NR_pread NR_pwrite Z.eqb Pos.eqb] in C; cbv beta iota delta [NR_lseek NR_read NR_write NR_pread NR_pwrite]; rewrite F.
  - destruct (h_lseek _ _ _ _ _) as [r1 w1]. injection C as <- <- <-. eexists. split; [reflexivity|]. cbn. rewrite !Z.add_0_r. auto.
  - assert (load_le (t_mem s) (p + 8 * 3) 8 < 2 ^ 31) as L by (apply LN; discriminate). assert (_ <? 2 ^ 31 = true) as -> by (apply Z.ltb_lt, L).
    destruct (h_read _ _ _ _) as [[r1 l1] w1]. cbn [fst] in KR. injection C as <- <- <-. eexists. split; [reflexivity|]. cbn. rewrite !Z.add_0_r. repeat split. intros x.
    rewrite (SR r1 _ L) by (apply KR; lia). apply RE. intros y. symmetry. apply FS.
  - assert (load_le (t_mem s) (p + 8 * 3) 8 < 2 ^ 31) as L by (apply LN; discriminate). assert (_ <? 2 ^ 31 = true) as -> by (apply Z.ltb_lt, L).
    destruct (h_write _ _ _ _) as [r1 w1]. injection C as <- <- <-. eexists. split; [reflexivity|]. cbn. rewrite !Z.add_0_r. auto.
  - assert (load_le (t_mem s) (p + 8 * 3) 8 < 2 ^ 31) as L by (apply LN; discriminate). assert (_ <? 2 ^ 31 = true) as -> by (apply Z.ltb_lt, L).
    destruct (h_pread _ _ _ _ _) as [[r1 l1] w1]. cbn [fst] in KP. injection C as <- <- <-. eexists. split; [reflexivity|]. cbn. rewrite !Z.add_0_r. repeat split. intros x.
    rewrite (SR r1 _ L) by (apply KP; lia). apply RE. intros y. symmetry. apply FS.
  - assert (load_le (t_mem s) (p + 8 * 3) 8 < 2 ^ 31) as L by (apply LN; discriminate). assert (_ <? 2 ^ 31 = true) as -> by (apply Z.ltb_lt, L).
    destruct (h_pwrite _ _ _ _ _) as [r1 w1]. injection C as <- <- <-. eexists. split; [reflexivity|]. cbn. rewrite !Z.add_0_r. auto.
Qed.
Print Assumptions htif_fd_call.
Example fd_call_case : seen (hcall [NR_write; 1; 0x3000; 2] [65; 66]) = Some (2, 1, [(1, -1, [65; 66])], 0) /\
  option_map (fun s => map (t_mem s) [0x3000; 0x3001; 0x3002; 0x2000; 0x1010]) (hcall [NR_pread; 0; 0x3000; 3; 40] [1; 2; 3]) = Some [6; 5; 3; 2; 1].
Proof. vm_compute. split; reflexivity. Qed.

(** A descriptor that is not in the map: the result is -1 and only the response is stored. *)
Theorem htif_unknown_fd : forall (W : Type) (H : hposix W) (s : htif W) (address size p : Z),
  hposix_ok H -> requested s address size p -> In (dw (t_mem s) p 0) [NR_close; NR_lseek; NR_read; NR_write; NR_pread; NR_pwrite] ->
  find (t_fds s) (sgn 32 (dw (t_mem s) p 1)) = None -> dw (t_mem s) p 3 < 2 ^ 31 ->
  exists s', StoreEvent H s address size = Some s' /\ t_os s' = t_os s /\ t_fds s' = t_fds s /\ t_mem s' = respond (t_mem s) p (t_from s) (-1 mod 2 ^ 64).
Proof.
  intros W H s address size p K Q I F LN. rewrite (requested_eq H _ _ _ _ Q).
  destruct (K (t_os s)) as (_ & _ & K1 & K2 & K3 & K4 & K5).
  unfold dw in *. unfold syscall, host_fd, allocate. assert (load_le (t_mem s) (p + 8 * 3) 8 <? 2 ^ 31 = true) as -> by (apply Z.ltb_lt, LN).
  cbn [In] in I. destruct I as [I|[I|[I|[I|[I|[I|[]]]]]]]; rewrite <- I; cbv beta iota delta [NR_close NR_lseek NR_read NR_write NR_pread NR_pwrite]; rewrite F.
  - eexists. split; [reflexivity|]. repeat split; reflexivity.
  - rewrite K1. eexists. split; [reflexivity|]. repeat split; reflexivity.
  - destruct (K2 (load_le (t_mem s) (p + 8 * 3) 8)) as [A1 A2]. destruct (h_read _ _ _ _) as [[r l] w]. cbn [fst snd] in A1, A2. subst. eexists. split; [reflexivity|]. repeat split; reflexivity.
  - rewrite K3. eexists. split; [reflexivity|]. repeat split; reflexivity.
  - destruct (K4 (load_le (t_mem s) (p + 8 * 3) 8) (sgn 64 (load_le (t_mem s) (p + 8 * 4) 8))) as [A1 A2]. destruct (h_pread _ _ _ _ _) as [[r l] w]. cbn [fst snd] in A1, A2. subst. eexists. split; [reflexivity|]. repeat split; reflexivity.
  - rewrite K5. eexists. split; [reflexivity|]. repeat split; reflexivity.
Qed.
Print Assumptions htif_unknown_fd.
Example unknown_fd_case : seen (hcall [NR_write; 3; 0x3000; 2] [65; 66]) = Some (2 ^ 64 - 1, 1, [], 0). Proof. vm_compute. reflexivity. Qed.

(** exit: the halt callback runs once and the response is 0. *)
Theorem htif_exit : forall (W : Type) (H : hposix W) (s : htif W) (address size p : Z),
  requested s address size p -> dw (t_mem s) p 0 = NR_exit ->
  exists s', StoreEvent H s address size = Some s' /\ t_os s' = t_os s /\ t_halts s' = t_halts s + (if t_halt s then 1 else 0) /\ t_mem s' = respond (t_mem s) p (t_from s) 0.
Proof.
  intros W H s address size p Q I. rewrite (requested_eq H _ _ _ _ Q). unfold dw in I. unfold syscall. rewrite I.
  eexists. split; [reflexivity|]. split; [reflexivity|]. split; [apply Z.add_0_r|reflexivity].
Qed.
Print Assumptions htif_exit.
Example exit_case : seen (hcall [NR_exit] []) = Some (0, 1, [], 1). Proof. vm_compute. reflexivity. Qed.

(** openat: the host opens the name in the directory behind the given descriptor (-1 if unknown) with the flags and mode given; the
    response is the host's result. *)
Theorem htif_openat_partial : forall (W : Type) (H : hposix W) (s : htif W) (address size p : Z),
  requested s address size p -> dw (t_mem s) p 0 = NR_openat -> dw (t_mem s) p 3 < 2 ^ 31 ->
  In 0 (bytes_at (t_mem s) (dw (t_mem s) p 2) (Z.to_nat (dw (t_mem s) p 3))) ->
  let dir := match find (t_fds s) (sgn 32 (dw (t_mem s) p 1)) with Some d => d | None => -1 end in
  let name := c_string (bytes_at (t_mem s) (dw (t_mem s) p 2) (Z.to_nat (dw (t_mem s) p 3))) in
  let (r, w) := h_openat H (t_os s) dir name (sgn 32 (dw (t_mem s) p 4)) (wrap 32 (dw (t_mem s) p 5)) in
  exists s', StoreEvent H s address size = Some s' /\ t_os s' = w /\ t_mem s' = respond (t_mem s) p (t_from s) (r mod 2 ^ 64) /\ t_fds s' = t_fds s.
Proof.
  intros W H s address size p Q I L Z. cbv zeta. rewrite (requested_eq H _ _ _ _ Q). unfold dw in *. unfold syscall. rewrite I. unfold NR_openat, allocate, c_name.
  assert (load_le (t_mem s) (p + 8 * 3) 8 <? 2 ^ 31 = true) as -> by (apply Z.ltb_lt, L).
  assert (existsb (Z.eqb 0) (bytes_at (t_mem s) (load_le (t_mem s) (p + 8 * 2) 8) (Z.to_nat (load_le (t_mem s) (p + 8 * 3) 8))) = true) as ->.
  { apply existsb_exists. exists 0. split; [exact Z|reflexivity]. }
  change c_str with c_string. unfold host_fd. destruct (h_openat _ _ _ _ _ _) as [r w]. eexists. split; [reflexivity|]. repeat split; reflexivity.
Qed.
Print Assumptions htif_openat_partial.
Example openat_case : seen (hcall [NR_openat; 2 ^ 64 - 100; 0x3000; 3; 2; 0x1ff] [65; 66; 0]) = Some (3, 1, [(-100, 1000, [65; 66])], 0). Proof. vm_compute. reflexivity. Qed.

(** Every history: between events the program and the host do as they please. *)
Inductive hhistory {W} (H : hposix W) : htif W -> Prop :=
| hh_start s : t_fds s = htif_fds -> hhistory H s
| hh_between s m w : hhistory H s -> hhistory H (upd s m (t_fds s) w 0 0)
| hh_event s address size s' : hhistory H s -> StoreEvent H s address size = Some s' -> hhistory H s'.
Lemma event_fds {W} (H : hposix W) s address size s' : StoreEvent H s address size = Some s' -> forall k v, find (t_fds s') k = Some v -> find (t_fds s) k = Some v.
Proof.
  unfold StoreEvent. destruct (_ || _); [intros E; injection E as <-; auto|]. destruct (negb _); [intros E; injection E as <-; auto|]. cbv zeta. destruct (_ || _); [intros E; injection E as <-; auto|].
  destruct (negb _); [intros E; injection E as <-; auto|]. set (p := load_le _ _ 8).
  assert (X : forall r s1 f, syscall H s p = Some (r, s1, f) -> forall k v, find (t_fds s1) k = Some v -> find (t_fds s) k = Some v).
  { intros r s1 f. unfold syscall.
    assert (D : forall s2 : htif W, t_fds s2 = t_fds s -> Some (r, s1, f) = Some (r, s2, f) -> forall k v, find (t_fds s1) k = Some v -> find (t_fds s) k = Some v) by (intros s2 E X; injection X as ->; rewrite E; auto).
    assert (U : forall m w a b, t_fds (upd s m (t_fds s) w a b) = t_fds s) by reflexivity.
    destruct (load_le (t_mem s) (p + 8 * 0) 8) as [|q|q]; try (destruct (t_error s); [|discriminate]; intros E; injection E as <- <- <-; auto).
    do 7 try (match goal with q : positive |- _ => destruct q end; try (destruct (t_error s); [|discriminate]; intros E; injection E as <- <- <-; exact (fun k v F => F))).
    all: try (intros E; injection E as <- <- <-; exact (fun k v F => F)).
    all: try (destruct (allocate _); [|discriminate]).
    all: try (destruct (c_name _); [|discriminate]).
    all: try (match goal with |- context [let (_, _) := ?e in _] => destruct e as [? ?] end).
    all: try (match goal with |- context [let (_, _) := ?e in _] => destruct e as [? ?] end).
    all: try (intros E; injection E as <- <- <-; exact (fun k v F => F)).
    all: destruct (find _ _); [|intros E; injection E as <- <- <-; exact (fun k v F => F)]; intros E; injection E as <- <- <-; intros k v; cbn [upd t_fds]; rewrite find_erase; destruct (k =? _); [discriminate|auto]. }
  destruct (syscall H s p) as [[[r s1] f]|] eqn:S; [|discriminate]. specialize (X r s1 f eq_refl). destruct f; intros E; injection E as <-; exact X.
Qed.
(** In every history only 0, 1, 2 and -100 are ever known, so a file opened with openat cannot be used, nor closed: the
    descriptor that openat returned is refused by every call. *)
Theorem htif_opened_file_usable_refuted : forall (W : Type) (H : hposix W) (s : htif W) (address size p : Z),
  hposix_ok H -> hhistory H s -> requested s address size p ->
  In (dw (t_mem s) p 0) [NR_close; NR_lseek; NR_read; NR_write; NR_pread; NR_pwrite] -> 3 <= dw (t_mem s) p 1 < 2 ^ 31 -> dw (t_mem s) p 3 < 2 ^ 31 ->
  exists s', StoreEvent H s address size = Some s' /\ t_os s' = t_os s /\ t_mem s' = respond (t_mem s) p (t_from s) (-1 mod 2 ^ 64).
Proof.
  intros W H s address size p K HH Q I R L.
  assert (X : forall k v, find (t_fds s) k = Some v -> k = -100 \/ 0 <= k <= 2).
  { clear - HH. induction HH as [s E|s m w _ IH|s a z s' _ IH E].
    - rewrite E. intros k v F. destruct (Z.eq_dec k (-100)); [auto|]. right. unfold htif_fds in F. cbn [find] in F.
      destruct (Z.eqb_spec (-100) k); [lia|]. destruct (Z.eqb_spec 2 k); [lia|]. destruct (Z.eqb_spec 1 k); [lia|]. destruct (Z.eqb_spec 0 k); [lia|discriminate].
    - exact IH.
    - intros k v F. apply (IH k v), (event_fds H s a z s' E), F. }
  destruct (htif_unknown_fd W H s address size p K Q I) as (s' & A1 & A2 & _ & A4); [|exact L|exists s'; auto].
  rewrite sgn_id; [|lia|change (2 ^ (32 - 1)) with (2 ^ 31); lia]. destruct (find _ _) eqn:F; [|reflexivity]. apply X in F. lia.
Qed.
Print Assumptions htif_opened_file_usable_refuted.
(** Such a history: openat gives 3, a write to 3 fails. *)
Example opened_file_case :
  let s1 := hcall [NR_openat; 2 ^ 64 - 100; 0x3000; 3; 2; 0x1ff] [65; 66; 0] in
  let s2 := match s1 with Some s => StoreEvent hdemo (upd s (himage [NR_write; 3; 0x3000; 2] [65; 66]) (t_fds s) (t_os s) 0 0) 0x1000 1 | None => None end in
  seen s1 = Some (3, 1, [(-100, 1000, [65; 66])], 0) /\ seen s2 = Some (2 ^ 64 - 1, 1, [(-100, 1000, [65; 66])], 0).
Proof. vm_compute. split; reflexivity. Qed.

(** Other call numbers: the error callback runs, and there is no response; without a callback the simulator crashes. *)
Theorem htif_unknown_call_partial : forall (W : Type) (H : hposix W) (s : htif W) (address size p : Z),
  requested s address size p -> ~ In (dw (t_mem s) p 0) nr_all -> t_error s = true ->
  exists s', StoreEvent H s address size = Some s' /\ t_errors s' = t_errors s + 1 /\ t_os s' = t_os s /\ t_mem s' = t_mem s /\ t_halts s' = t_halts s.
Proof.
  intros W H s address size p Q N E. rewrite (requested_eq H _ _ _ _ Q).
  assert (X : syscall H s p = Some (0, upd s (t_mem s) (t_fds s) (t_os s) 0 1, true)).
  { unfold syscall, dw in *. destruct (load_le (t_mem s) (p + 8 * 0) 8) as [|q|q]; try (rewrite E; reflexivity).
    do 7 try (match goal with q : positive |- _ => destruct q end; try (rewrite E; reflexivity)).
    all: exfalso; apply N; unfold nr_all, NR_openat, NR_close, NR_lseek, NR_read, NR_write, NR_pread, NR_pwrite, NR_exit; cbn [In]; tauto. }
  rewrite X. eexists. split; [reflexivity|]. cbn [upd t_errors t_os t_mem t_halts]. rewrite !Z.add_0_r. auto.
Qed.
Print Assumptions htif_unknown_call_partial.
Theorem htif_unknown_call_refuted : requested (hstart (himage [80] [])) 0x1000 1 0x2000 /\ hcall [80] [] = None.
Proof.
  split; [|vm_compute; reflexivity]. split; [|repeat split; vm_compute; congruence].
  intros x. unfold hstart, himage. cbn [t_mem combine seq length fold_left]. apply byte_mem_store, byte_mem_store, byte_mem_store.
  intros y. unfold put_bytes. cbn [length Z.of_nat]. replace ((12288 <=? y) && (y <? 12288 + 0)) with false; [lia|]. symmetry. destruct (Z.leb_spec 12288 y), (Z.ltb_spec y (12288 + 0)); try reflexivity; lia.
Qed.
Print Assumptions htif_unknown_call_refuted.
