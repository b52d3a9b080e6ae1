(** Lemmas on the semihosting model. *)
From Coq Require Import ZArith Bool List Lia.
From Verif Require Import Bits Memory SemSpec SemModel.
Import ListNotations.
Local Open Scope Z_scope.

(** The visible part of the machine, and the flags the code passes to open. *)
Definition get {W} (s : semi W) : view W := View (s_mem s) (s_a0 s) (s_a1 s) (s_os s).
Definition put {W} (s : semi W) (v : view W) : semi W :=
  {| s_mem := v_mem v; s_a0 := v_a0 v; s_a1 := v_a1 v; s_fds := s_fds s; s_errno := s_errno s; s_os := v_os v; s_cmd := s_cmd s; s_cb := s_cb s; s_exits := s_exits s |}.
Definition start {W} (s : semi W) : Prop := s_fds s = initial_fds.
Definition code_flags (mode : Z) : Z := if mode =? 0 then 0 else 64.

Section P.
Context {W : Type} (H : posix W) (b : Z) (HB : b = 32 \/ b = 64).

Lemma operation_eq op : operation H b op =
  if op =? 1 then Some (SysOpen H b) else if op =? 2 then Some (SysClose H b) else if op =? 5 then Some (SysWrite H b) else
  if op =? 6 then Some (SysRead H b) else if op =? 9 then Some (SysIsTty H b) else if op =? 10 then Some (SysSeek H b) else
  if op =? 12 then Some (SysFlen H b) else if op =? 13 then Some (SysTmpnam H b) else if op =? 17 then Some (fun s _ => SysTime H s) else
  if op =? 19 then Some (fun s _ => SysErrno s) else if op =? 21 then Some (SysGetCmdline b) else if op =? 22 then Some (SysHeapInfo b) else
  if op =? 24 then Some (SysException b) else if op =? 49 then Some (fun s _ => SysTickFreq s) else
  if existsb (Z.eqb op) [16; 48; 8; 7; 14; 15; 18; 3; 4] then Some (fun s _ => Unimplemented s) else None.
Proof.
  destruct op as [|p|p]; [reflexivity| |reflexivity].
  do 6 (destruct p as [p|p|]; try reflexivity).
Qed.

Lemma marked_call (s : semi W) a : marked (s_mem s) a -> IsSemihostingCall s a = true.
Proof.
  clear HB. unfold marked, IsSemihostingCall. intros (A & B & C).
  replace (a - 4 + 4 * 0) with (a - 4) by lia. replace (a - 4 + 4 * 1) with a by lia. replace (a - 4 + 4 * 2) with (a + 4) by lia.
  rewrite A, B, C. reflexivity.
Qed.
Lemma unmarked_call (s : semi W) a : ~ marked (s_mem s) a -> IsSemihostingCall s a = false.
Proof.
  clear HB. unfold marked, IsSemihostingCall. intros N.
  replace (a - 4 + 4 * 0) with (a - 4) by lia. replace (a - 4 + 4 * 1) with a by lia. replace (a - 4 + 4 * 2) with (a + 4) by lia.
  destruct (Z.eqb_spec (load_le (s_mem s) (a - 4) 4) 0x01f01013); [|reflexivity].
  destruct (Z.eqb_spec (load_le (s_mem s) a 4) 0x00100073); [|reflexivity].
  destruct (Z.eqb_spec (load_le (s_mem s) (a + 4) 4) 0x40705013); [|reflexivity]. exfalso. tauto.
Qed.
Lemma ebreak_marked (s : semi W) a f : marked (s_mem s) a -> operation H b (s_a0 s) = Some f ->
  OnEBreak H b s a = match f s (s_a1 s) with None => None | Some (None, s') => Some (set_a0 s' (wrap b (-1)))
                     | Some (Some r, s') => Some (set_a0 s' (wrap b r)) end.
Proof. intros M E. unfold OnEBreak. rewrite (marked_call _ _ M), E. reflexivity. Qed.

Lemma wrap_u64 v : wrap b (u64 v) = wrap b v.
Proof.
  unfold u64, wrap. destruct HB as [-> | ->]; [|apply Z.mod_mod; discriminate].
  change (2 ^ 64) with (2 ^ 32 * 2 ^ 32). rewrite Z.rem_mul_r by (try discriminate; reflexivity).
  rewrite Z.mul_comm, Z.mod_add by discriminate. apply Z.mod_mod; discriminate.
Qed.
Lemma int_small v : 0 <= v < 2 ^ 31 -> int_of v = v.
Proof. clear HB. intros R. apply sgn_id; [lia|]. change (2 ^ (32 - 1)) with (2 ^ 31). lia. Qed.
Lemma wrap_small v : 0 <= v < 2 ^ 31 -> wrap b v = v.
Proof. intros R. apply Z.mod_small. destruct HB as [-> | ->]; cbn in *; lia. Qed.
Lemma small_not_m1 v : 0 <= v < 2 ^ 31 -> v <> -1 mod 2 ^ b.
Proof. intros R. destruct HB as [-> | ->]; cbn in *; lia. Qed.
Lemma wrap_m1 : wrap b (-1) = -1 mod 2 ^ b. Proof. reflexivity. Qed.

(** Handles the map does not know. *)
Lemma int_of_wrap v : int_of v = int_of (wrap 32 v).
Proof. clear HB. unfold int_of. rewrite sgn_wrap; lia. Qed.
Lemma find_none l k : find l k = None <-> ~ In k (map fst l).
Proof.
  induction l as [|[a v] l IH]; cbn [find map fst In]; [tauto|].
  destruct (Z.eqb_spec a k); [split; [discriminate|intros N; exfalso; apply N; now left]|]. rewrite IH. tauto.
Qed.
Lemma find_erase l k x : find (erase l k) x = if x =? k then None else find l x.
Proof.
  induction l as [|[a v] l IH]; cbn [find erase filter fst]; [now destruct (x =? k)|].
  change (filter (fun p : Z * Z => negb (fst p =? k)) l) with (erase l k).
  destruct (Z.eqb_spec a k) as [-> | NE]; cbn [negb find].
  - rewrite IH. destruct (Z.eqb_spec x k); [reflexivity|]. destruct (Z.eqb_spec k x); [congruence|reflexivity].
  - rewrite IH. destruct (Z.eqb_spec a x) as [-> |]; [|reflexivity]. destruct (Z.eqb_spec x k); [congruence|reflexivity].
Qed.
Lemma find_insert l k v x : find l k = None -> find (insert l k v) x = if x =? k then Some v else find l x.
Proof. intros N. unfold insert. rewrite N. cbn [find]. rewrite Z.eqb_sym. reflexivity. Qed.

(** Every call keeps these; the map and the descriptors change in SYS_OPEN and SYS_CLOSE only. *)
Ltac ops E := rewrite operation_eq in E; repeat match type of E with context [?x =? ?k] => destruct (Z.eqb_spec x k) end;
  repeat match type of E with context [existsb ?f ?l] => destruct (existsb f l) end.

Lemma fds_stable (s : semi W) a (s' : semi W) : posix_ok H -> marked (s_mem s) a -> OnEBreak H b s a = Some s' -> s_a0 s <> SYS_OPEN -> s_a0 s <> SYS_CLOSE ->
  s_fds s' = s_fds s /\ forall x, p_fds H (s_os s') x = p_fds H (s_os s) x.
Proof.
  intros K M E N1 N2. unfold SYS_OPEN, SYS_CLOSE in *. destruct (K (s_os s)) as (_ & _ & _ & _ & _ & KR & KW & KS & KF & KI & KT & KN).
  destruct (operation H b (s_a0 s)) as [f|] eqn:F.
  2:{ unfold OnEBreak in E. rewrite (marked_call _ _ M), F in E. cbn in E. injection E as <-. auto. }
  rewrite (ebreak_marked _ _ _ M F) in E. rewrite operation_eq in F.
  repeat match type of F with context [s_a0 s =? ?k] => destruct (Z.eqb_spec (s_a0 s) k) end; try congruence.
  all: try (destruct (existsb _ _) in F; [|discriminate F]); injection F as <-.
  - unfold SysWrite, ok in E. destruct (find _ _); [|injection E as <-; auto]. destruct (_ <? 0); [discriminate|].
    destruct (p_write _ _ _ _) as [r w] eqn:P. injection E as <-. destruct (r <? 0); cbn [set_a0 set_errno set_os s_fds s_os]; (split; [reflexivity|]); intros x; edestruct KW as [_ Q]; erewrite <- Q; rewrite P; reflexivity.
  - unfold SysRead, ok in E. destruct (find _ _); [|injection E as <-; auto]. destruct (int_of (word b s (s_a1 s) 2) <? 0) eqn:L; [discriminate|]. apply Z.ltb_ge in L.
    destruct (KR z _ L) as (_ & _ & _ & Q). destruct (p_read _ _ _ _) as [[r bu] w] eqn:P. cbn [snd] in Q. destruct (r <? 0); injection E as <-; auto.
  - unfold SysIsTty, ok in E. destruct (find _ _); [|injection E as <-; auto]. specialize (KI z). destruct (p_isatty _ _ _) as [r w]. injection E as <-. destruct (r =? 0); auto.
  - unfold SysSeek, ok in E. destruct (find _ _); [|injection E as <-; auto]. specialize (KS z (int_of (word b s (s_a1 s) 1))). destruct (p_lseek _ _ _ _) as [r w]. destruct (r <? 0); injection E as <-; auto.
  - unfold SysFlen, ok in E. destruct (find _ _); [|injection E as <-; auto]. specialize (KF z). destruct (p_fstat _ _ _) as [[r sz] w]. destruct (r <? 0); injection E as <-; auto.
  - unfold SysTmpnam, ok in E. destruct (_ || _); [injection E as <-; auto|]. destruct (_ <? 20); [injection E as <-; auto|].
    specialize (KN (int_of (word b s (s_a1 s) 2))). destruct (p_tmpnam _ _ _) as [bu w]. injection E as <-; auto.
  - unfold SysTime, ok in E. destruct (p_time _ _) as [t w]. injection E as <-; auto.
  - injection E as <-; auto.
  - unfold SysGetCmdline, ok in E. destruct (_ <=? _); injection E as <-; auto.
  - injection E as <-; auto.
  - unfold SysException, ok in E. destruct (_ =? 0x20026); [destruct (s_cb s)|]; injection E as <-; auto.
  - injection E as <-; auto.
  - injection E as <-; auto.
Qed.

(** What the two others do. *)
Lemma close_eq (s : semi W) a : marked (s_mem s) a -> s_a0 s = SYS_CLOSE -> OnEBreak H b s a =
  match find (s_fds s) (int_of (word b s (s_a1 s) 0)) with
  | None => Some (set_a0 s (wrap b (-1)))
  | Some fd => if fd <=? 2 then Some (set_a0 s 0) else
    let (r, w) := p_close H (s_os s) fd in
    Some (set_a0 (if r =? 0 then set_errno (set_os s w) (p_errno H w) else set_fds (set_os s w) (erase (s_fds s) (int_of (word b s (s_a1 s) 0)))) (wrap b r)) end.
Proof.
  intros M E. rewrite (ebreak_marked s a (SysClose H b) M) by (rewrite E; apply operation_eq).
  unfold SysClose, ok. destruct (find _ _) as [fd|]; [|rewrite wrap_u64; reflexivity].
  destruct (fd <=? 2); [reflexivity|]. destruct (p_close _ _ _) as [r w]. rewrite wrap_u64. reflexivity.
Qed.
Lemma c_str_eq l : c_str l = c_string l. Proof. induction l as [|c l IH]; cbn; [|rewrite IH]; reflexivity. Qed.
Lemma open_eq (s : semi W) a : marked (s_mem s) a -> s_a0 s = SYS_OPEN -> OnEBreak H b s a =
  let mode := int_of (word b s (s_a1 s) 1) in
  let len := int_of (word b s (s_a1 s) 2) in
  if len <? 0 then None else
  let name := bytes_at (s_mem s) (word b s (s_a1 s) 0) (Z.to_nat len) in
  let '(fd, w) := if list_eq_dec Z.eq_dec name [58; 116; 116] then ((if mode =? 0 then 0 else 1), s_os s)
    else p_open H (s_os s) (c_string name) (code_flags mode) mode in
  let (h, w) := p_dup H w fd in
  Some (set_a0 (if h <? 0 then set_errno (set_os s w) (p_errno H w) else set_fds (set_os s w) (insert (s_fds s) h fd)) (wrap b h)).
Proof.
  intros M E. rewrite (ebreak_marked s a (SysOpen H b) M) by (rewrite E; apply operation_eq).
  unfold SysOpen, ok, code_flags. cbv zeta. destruct (_ <? 0); [reflexivity|]. rewrite c_str_eq.
  destruct (if list_eq_dec Z.eq_dec _ _ then _ else _) as [fd w]. destruct (p_dup H w fd) as [h w2].
  destruct (h <? 0); rewrite wrap_u64; reflexivity.
Qed.

(** ** Every history *)
Lemma issued_inv (s : semi W) l : posix_ok H -> history b get put (OnEBreak H b) start s l -> forall h, find (s_fds s) h <> None -> 0 <= h < 2 ^ 31 /\ (0 <= h <= 2 \/ In h l).
Proof.
  intros K. induction 1 as [s I|s l v _ IH|s l a s' Hi IH M E].
  - intros h F. rewrite I in F. unfold initial_fds in F. rewrite find_none in F. cbn [map fst In] in F.
    assert (0 <= h <= 2). { destruct (Z.eq_dec 2 h), (Z.eq_dec 1 h), (Z.eq_dec 0 h); try lia. } lia.
  - intros h F. apply (IH h F).
  - cbn [get v_a0 v_mem] in *. destruct (Z.eqb_spec (s_a0 s) SYS_OPEN) as [O|NO].
    + rewrite (open_eq _ _ M O) in E. cbv zeta in E. destruct (_ <? 0); [discriminate|].
      destruct (if list_eq_dec Z.eq_dec _ _ then _ else _) as [fd w].
      destruct (K w) as (KB & _ & KD & _). destruct (KD fd) as [KD1 _]. destruct (p_dup H w fd) as [t w2]. cbn [fst snd] in KD1.
      injection E as <-. cbn [set_a0 s_a0 s_fds].
      destruct KD1 as [[-> _] | (R & _)].
      * cbn [Z.ltb Z.compare set_errno set_os s_fds]. rewrite wrap_m1, Z.eqb_refl. cbn [andb negb]. exact IH.
      * assert (t <? 0 = false) as -> by (apply Z.ltb_ge; lia). cbn [set_fds set_os s_fds]. rewrite (wrap_small _ R).
        assert (t =? -1 mod 2 ^ b = false) as -> by (apply Z.eqb_neq, small_not_m1, R). cbn [andb negb].
        intros h F. destruct (find (s_fds s) t) eqn:FT.
        -- unfold insert in F. rewrite FT in F. destruct (IH h F) as [A [B|B]]; cbn [In]; tauto.
        -- rewrite (find_insert _ _ _ _ FT) in F. destruct (Z.eqb_spec h t) as [EQ|NE]; [subst; cbn [In]; tauto|]. destruct (IH h F) as [A [B|B]]; cbn [In]; tauto.
    + cbn [andb]. destruct (Z.eq_dec (s_a0 s) SYS_CLOSE) as [C|NC].
      * rewrite (close_eq _ _ M C) in E. destruct (find (s_fds s) _) as [fd|]; [|injection E as <-; exact IH].
        destruct (fd <=? 2); [injection E as <-; exact IH|]. destruct (p_close _ _ _) as [r w]. injection E as <-.
        destruct (r =? 0); [exact IH|]. cbn [set_a0 set_fds s_fds]. intros h F. rewrite find_erase in F. destruct (h =? _); [congruence|]. exact (IH h F).
      * destruct (fds_stable _ _ _ K M E NO NC) as [Q _]. rewrite Q. exact IH.
Qed.

(** A handle the map does not know is refused. *)
Lemma refused (s : semi W) a : marked (s_mem s) a -> In (s_a0 s) handle_ops -> find (s_fds s) (int_of (word b s (s_a1 s) 0)) = None ->
  OnEBreak H b s a = Some (set_a0 s (-1 mod 2 ^ b)).
Proof.
  intros M I F. unfold handle_ops in I. cbn [In] in I.
  destruct I as [I|[I|[I|[I|[I|[I|[]]]]]]]; symmetry in I.
  1: rewrite (close_eq _ _ M I), F; reflexivity.
  - rewrite (ebreak_marked s a (SysWrite H b) M) by (rewrite I; reflexivity). unfold SysWrite. rewrite F. unfold ok. rewrite wrap_u64. reflexivity.
  - rewrite (ebreak_marked s a (SysRead H b) M) by (rewrite I; reflexivity). unfold SysRead. rewrite F. unfold ok. rewrite wrap_u64. reflexivity.
  - rewrite (ebreak_marked s a (SysIsTty H b) M) by (rewrite I; reflexivity). unfold SysIsTty. rewrite F. unfold ok. rewrite wrap_u64. reflexivity.
  - rewrite (ebreak_marked s a (SysSeek H b) M) by (rewrite I; reflexivity). unfold SysSeek. rewrite F. unfold ok. rewrite wrap_u64. reflexivity.
  - rewrite (ebreak_marked s a (SysFlen H b) M) by (rewrite I; reflexivity). unfold SysFlen. rewrite F. unfold ok. rewrite wrap_u64. reflexivity.
Qed.

(** ** Orderly histories *)
Record inv (s : semi W) (live : list (Z * Z)) (closed : list Z) : Prop := {
  i_live : forall h fd, In (h, fd) live -> find (s_fds s) h = Some fd;
  i_known : forall h, find (s_fds s) h <> None -> In h (map fst live) \/ In h closed;
  i_open : forall x, owned live closed x -> p_fds H (s_os s) x = true;
  i_nodup : NoDup (map fst live ++ closed);
  i_host : forall h fd, In (h, fd) live -> 2 < fd -> ~ In fd (map fst live) /\ ~ In fd closed /\ forall h', In (h', fd) live -> h' = h;
  i_std : forall x, 0 <= x <= 2 -> In (x, x) live }.

Lemma in_fst {A B} (x : A) (y : B) l : In (x, y) l -> In x (map fst l). Proof. intros I. apply (in_map fst) in I. exact I. Qed.
Lemma in_snd {A B} (x : A) (y : B) l : In (x, y) l -> In y (map snd l). Proof. intros I. apply (in_map snd) in I. exact I. Qed.
Lemma live_range s live closed h fd : posix_ok H -> inv s live closed -> In (h, fd) live -> 0 <= h < 2 ^ 31 /\ 0 <= fd < 2 ^ 31.
Proof. intros K I L. destruct (K (s_os s)) as (KB & _). split; apply KB, (i_open _ _ _ I); unfold owned; [left; eapply in_fst|right; left; eapply in_snd]; exact L. Qed.
(** The map and the descriptors are all that matters. *)
Lemma inv_same s s' live closed : inv s live closed -> s_fds s' = s_fds s -> (forall x, owned live closed x -> p_fds H (s_os s') x = true) -> inv s' live closed.
Proof. intros [A B C D E F] Q P. constructor; rewrite ?Q; auto. Qed.

Lemma nodup_app_filter (f : Z * Z -> bool) live closed : NoDup (map fst live ++ closed) -> NoDup (map fst (filter f live) ++ closed).
Proof.
  induction live as [|[h fd] live IH]; cbn [map fst filter app]; [auto|]. intros N. apply NoDup_cons_iff in N as [N1 N2].
  destruct (f (h, fd)); cbn [map fst app]; [|auto]. constructor; [|auto]. intros I. apply N1. rewrite in_app_iff in *. destruct I as [I|I]; [left|now right].
  apply in_map_iff in I as ((x & y) & <- & I). apply filter_In in I as [I _]. eapply in_fst; exact I.
Qed.

Lemma orderly_inv s live closed : posix_ok H -> orderly H b code_flags get put (OnEBreak H b) start s live closed -> inv s live closed.
Proof.
  intros K. induction 1 as [s I O|s live closed m a0 a1 _ IH|s live closed w _ IH P|s live closed a s' _ IH M O E A1 A2|s live closed a s' fd _ IH M C E L F|s live closed a s' fd _ IH M C E L F|s live closed a s' _ IH M NO NC E];
    cbn [get v_a0 v_a1 v_mem v_os] in *.
  - constructor; rewrite ?I.
    + unfold initial_fds. intros h fd. cbn [In]. intros [L|[L|[L|[]]]]; injection L as <- <-; reflexivity.
    + intros h N. left. destruct (in_dec Z.eq_dec h (map fst initial_fds)) as [Y|Y]; [exact Y|]. apply find_none in Y. contradiction.
    + unfold owned. cbn [map fst snd In]. intros x X. apply O. intuition lia.
    + cbn [map fst app]. repeat constructor; cbn [In]; intuition lia.
    + cbn [In]. intros h fd L F. exfalso. destruct L as [L|[L|[L|[]]]]; injection L as <- <-; lia.
    + intros x X. cbn [In]. assert (x = 0 \/ x = 1 \/ x = 2) as [-> |[-> | ->]] by lia; tauto.
  - apply (inv_same s); [exact IH|reflexivity|apply (i_open _ _ _ IH)].
  - apply (inv_same s); [exact IH|reflexivity|exact P].
  - (* open *)
    change (arg (s_mem s) (s_a1 s) (b / 8) 1) with (word b s (s_a1 s) 1) in A1. change (arg (s_mem s) (s_a1 s) (b / 8) 2) with (word b s (s_a1 s) 2) in A2.
    rewrite (open_eq _ _ M O) in E. cbv zeta in E. rewrite !int_small in E by assumption.
    assert (word b s (s_a1 s) 2 <? 0 = false) as Q by (apply Z.ltb_ge; lia). rewrite Q in E. clear Q.
    unfold open_fd. cbn [get v_mem v_a1 v_os]. unfold name_arg.
    change (arg (s_mem s) (s_a1 s) (b / 8) 0) with (word b s (s_a1 s) 0). change (arg (s_mem s) (s_a1 s) (b / 8) 1) with (word b s (s_a1 s) 1). change (arg (s_mem s) (s_a1 s) (b / 8) 2) with (word b s (s_a1 s) 2).
    set (name := bytes_at _ _ _) in *. set (mode := word b s (s_a1 s) 1) in *.
    set (fd := if list_eq_dec Z.eq_dec name [58; 116; 116] then if mode =? 0 then 0 else 1 else fst (p_open H (s_os s) (c_string name) (code_flags mode) mode)).
    assert (X : exists w, (if list_eq_dec Z.eq_dec name [58; 116; 116] then (if mode =? 0 then 0 else 1, s_os s) else p_open H (s_os s) (c_string name) (code_flags mode) mode) = (fd, w) /\
      (forall x, p_fds H (s_os s) x = true -> p_fds H w x = true) /\ (0 <= fd -> p_fds H w fd = true) /\ (fd = -1 \/ 0 <= fd <= 1 \/ 2 < fd /\ p_fds H (s_os s) fd = false)).
    { destruct (K (s_os s)) as (_ & KO & _). specialize (KO (c_string name) (code_flags mode) mode).
      subst fd. destruct (list_eq_dec Z.eq_dec name [58; 116; 116]).
      - exists (s_os s). split; [reflexivity|]. split; [auto|]. assert (R : 0 <= (if mode =? 0 then 0 else 1) <= 1) by (destruct (mode =? 0); lia).
        split; [|auto]. intros _. apply (i_open _ _ _ IH). left. apply (in_fst _ (if mode =? 0 then 0 else 1)). apply (i_std _ _ _ IH). lia.
      - destruct (p_open H (s_os s) (c_string name) (code_flags mode) mode) as [r w]. cbn [fst snd] in *. exists w. split; [reflexivity|].
        destruct KO as [[-> KO] | (R & KO1 & KO2)].
        + split; [intros x; rewrite KO; auto|]. split; [lia|now left].
        + split; [intros x Y; rewrite KO2; destruct (x =? r); auto|]. split; [intros _; rewrite KO2, Z.eqb_refl; reflexivity|]. right. right. split; [|exact KO1].
          destruct (Z.le_gt_cases r 2) as [Z2|Z2]; [exfalso|lia].
          assert (p_fds H (s_os s) r = true) by (apply (i_open _ _ _ IH); left; apply (in_fst _ r), (i_std _ _ _ IH); lia). congruence. }
    destruct X as (w & X & XM & XF & XR). rewrite X in E. clear X.
    destruct (K w) as (KB & _ & KD & _). destruct (KD fd) as [KD1 KD2]. destruct (p_dup H w fd) as [t w2]. cbn [fst snd] in *.
    injection E as <-. cbn [set_a0 s_a0 s_fds s_os].
    destruct KD1 as [[-> KD1] | (R & KN & KD1)].
    + rewrite wrap_m1, Z.eqb_refl. cbn [Z.ltb Z.compare]. apply (inv_same s); [exact IH|reflexivity|].
      intros x Y. cbn [set_a0 set_errno set_os s_os]. rewrite KD1. apply XM, (i_open _ _ _ IH), Y.
    + assert (t <? 0 = false) as -> by (apply Z.ltb_ge; lia). rewrite (wrap_small _ R).
      assert (t =? -1 mod 2 ^ b = false) as -> by (apply Z.eqb_neq, small_not_m1, R).
      assert (FT : find (s_fds s) t = None).
      { destruct (find (s_fds s) t) eqn:FT; [exfalso|reflexivity]. assert (p_fds H (s_os s) t = true); [|rewrite XM in KN; congruence].
        apply (i_open _ _ _ IH). destruct (i_known _ _ _ IH t); [congruence|now left|now right; right]. }
      assert (NT : ~ owned live closed t). { intros Y. apply (i_open _ _ _ IH), XM in Y. congruence. }
      assert (FN : 0 <= fd). { destruct XR as [-> | XR]; [|lia]. destruct (p_fds H w (-1)) eqn:G; [apply KB in G; lia|]. specialize (KD2 eq_refl). lia. }
      specialize (XF FN).
      assert (TF : t <> fd) by congruence.
      assert (NF : 2 < fd -> ~ owned live closed fd). { intros F2 Y. apply (i_open _ _ _ IH) in Y. destruct XR as [XR|[XR|[_ XR]]]; [lia|lia|congruence]. }
      unfold owned in NT, NF.
      constructor; cbn [set_a0 set_fds set_os s_fds s_os].
      * intros h fd' [L|L]; rewrite (find_insert _ _ _ _ FT).
        -- injection L as <- <-. rewrite Z.eqb_refl. reflexivity.
        -- destruct (Z.eqb_spec h t) as [-> |]; [|apply (i_live _ _ _ IH), L]. exfalso. apply NT. left. eapply in_fst, L.
      * intros h. rewrite (find_insert _ _ _ _ FT). cbn [map fst In]. destruct (Z.eqb_spec h t); [subst; auto|]. intros N. destruct (i_known _ _ _ IH h N); auto.
      * unfold owned. cbn [map fst snd In]. intros x Y. rewrite KD1. destruct (Z.eqb_spec x t); [reflexivity|].
        destruct Y as [[Y|Y]|[[Y|Y]|Y]]; [congruence| |subst; exact XF| |]; apply XM, (i_open _ _ _ IH); unfold owned; auto.
      * cbn [map fst app]. constructor; [|apply (i_nodup _ _ _ IH)]. rewrite in_app_iff. tauto.
      * cbn [map fst In]. intros h fd' [L|L] F2.
        -- injection L as <- <-. specialize (NF F2). split; [|split; [tauto|]]. { intros [Y|Y]; [congruence|tauto]. }
           intros h' [Y|Y]; [congruence|]. exfalso. apply NF. right; left. eapply in_snd, Y.
        -- destruct (i_host _ _ _ IH h fd' L F2) as (B1 & B2 & B3). split; [|split; [exact B2|]].
           ++ intros [Y|Y]; [|tauto]. subst. apply NT. right; left. eapply in_snd, L.
           ++ intros h' [Y|Y]; [|exact (B3 h' Y)]. injection Y as <- <-. exfalso. apply (NF F2). right; left. eapply in_snd, L.
      * intros x X. right. apply (i_std _ _ _ IH x X).
  - (* close *)
    unfold handle_of in *. cbn [get v_mem v_a1] in *. change (arg (s_mem s) (s_a1 s) (b / 8) 0) with (word b s (s_a1 s) 0) in *. set (h := word b s (s_a1 s) 0) in *.
    destruct (live_range _ _ _ _ _ K IH L) as [RH RF]. rewrite (close_eq _ _ M C) in E. fold h in E. rewrite (int_small _ RH), (i_live _ _ _ IH _ _ L) in E.
    assert (fd <=? 2 = false) as Q by (apply Z.leb_gt; lia). rewrite Q in E. clear Q.
    destruct (K (s_os s)) as (_ & _ & _ & KC & _). destruct (KC fd) as [KC1 KC2]. { apply (i_open _ _ _ IH). right; left. eapply in_snd, L. }
    destruct (p_close H (s_os s) fd) as [r w]. cbn [fst snd] in *. subst r. cbn [Z.eqb] in E. injection E as <-.
    destruct (i_host _ _ _ IH _ _ L F) as (B1 & B2 & B3).
    constructor; cbn [set_a0 set_errno set_os s_fds s_os].
    + intros h' fd' Y. apply filter_In in Y as [Y _]. apply (i_live _ _ _ IH), Y.
    + intros h' N. destruct (i_known _ _ _ IH h' N) as [Y|Y]; [|right; now right]. destruct (Z.eq_dec h' h) as [-> | NE]; [right; now left|]. left.
      apply in_map_iff in Y as ((x & y) & Y1 & Y). cbn in Y1. subst x. apply (in_fst _ y), filter_In. split; [exact Y|]. cbn [fst]. destruct (Z.eqb_spec h' h); [contradiction|reflexivity].
    + unfold owned. intros x Y. rewrite KC2. destruct (Z.eqb_spec x fd) as [-> | NE].
      * exfalso. destruct Y as [Y|[Y|[Y|Y]]].
        -- apply in_map_iff in Y as ((x & y) & Y1 & Y). cbn in Y1. subst x. apply filter_In in Y as [Y _]. apply B1. eapply in_fst, Y.
        -- apply in_map_iff in Y as ((x & y) & Y1 & Y). cbn in Y1. subst y. apply filter_In in Y as [Y Y2]. cbn [fst] in Y2. rewrite (B3 x Y), Z.eqb_refl in Y2. discriminate.
        -- subst fd. apply B1. eapply in_fst, L.
        -- contradiction.
      * apply (i_open _ _ _ IH). destruct Y as [Y|[Y|[Y|Y]]].
        -- left. apply in_map_iff in Y as ((x1 & y) & Y1 & Y). cbn in Y1. subst x1. apply filter_In in Y as [Y _]. eapply in_fst, Y.
        -- right; left. apply in_map_iff in Y as ((x1 & y) & Y1 & Y). cbn in Y1. subst y. apply filter_In in Y as [Y _]. eapply in_snd, Y.
        -- left. subst x. eapply in_fst, L.
        -- right; now right.
    + pose proof (i_nodup _ _ _ IH) as N. apply (NoDup_Add (Add_app h _ _)). split; [apply nodup_app_filter, N|]. rewrite in_app_iff. intros [Y|Y].
      * apply in_map_iff in Y as ((x & y) & Y1 & Y). cbn in Y1. subst x. apply filter_In in Y as [_ Y]. cbn [fst] in Y. rewrite Z.eqb_refl in Y. discriminate.
      * apply in_fst in L. apply in_split in L as (l1 & l2 & L). rewrite L in N. rewrite <- app_assoc in N. cbn [app] in N. apply NoDup_remove_2 in N. apply N. rewrite !in_app_iff. auto.
    + intros h' fd' Y F2. apply filter_In in Y as [Y Y2]. cbn [fst] in Y2. destruct (i_host _ _ _ IH _ _ Y F2) as (D1 & D2 & D3). split; [|split].
      * intros Z1. apply D1. apply in_map_iff in Z1 as ((x & y) & <- & Z1). apply filter_In in Z1 as [Z1 _]. eapply in_fst, Z1.
      * intros [Z1|Z1]; [|contradiction]. subst fd'. apply D1. eapply in_fst, L.
      * intros x Z1. apply filter_In in Z1 as [Z1 _]. apply D3, Z1.
    + intros x X. apply filter_In. split; [apply (i_std _ _ _ IH x X)|]. cbn [fst]. destruct (Z.eqb_spec x h) as [-> |]; [exfalso|reflexivity].
      pose proof (i_live _ _ _ IH _ _ (i_std _ _ _ IH h X)) as Q. rewrite (i_live _ _ _ IH _ _ L) in Q. injection Q as ->. lia.
  - (* close of a console handle *)
    unfold handle_of in *. cbn [get v_mem v_a1] in *. change (arg (s_mem s) (s_a1 s) (b / 8) 0) with (word b s (s_a1 s) 0) in *. set (h := word b s (s_a1 s) 0) in *.
    destruct (live_range _ _ _ _ _ K IH L) as [RH RF]. rewrite (close_eq _ _ M C) in E. fold h in E. rewrite (int_small _ RH), (i_live _ _ _ IH _ _ L) in E.
    assert (fd <=? 2 = true) as Q by (apply Z.leb_le; lia). rewrite Q in E. injection E as <-. apply (inv_same s); [exact IH|reflexivity|apply (i_open _ _ _ IH)].
  - destruct (fds_stable _ _ _ K M E NO NC) as [Q1 Q2]. apply (inv_same s); [exact IH|exact Q1|]. intros x Y. rewrite Q2. apply (i_open _ _ _ IH), Y.
Qed.
End P.

Lemma bytes_at_length m a n : length (bytes_at m a n) = n. Proof. unfold bytes_at. rewrite map_length. apply seq_length. Qed.
Section Q.
Context {W : Type} (H : posix W) (b : Z) (HB : b = 32 \/ b = 64).
Lemma xbytes : Z.to_nat (b / 8) = 4%nat /\ b / 8 = 4 \/ Z.to_nat (b / 8) = 8%nat /\ b / 8 = 8.
Proof. destruct HB as [-> | ->]; [left|right]; split; reflexivity. Qed.

(** ** Effects on the rest of the machine *)
Definition mem_ops : list Z := [SYS_READ; SYS_TMPNAM; SYS_GET_CMDLINE; SYS_HEAPINFO].
Definition exit_reason (s : semi W) : Z := wrap 32 (if b =? 32 then s_a1 s else word b s (s_a1 s) 0).
Ltac fin' WR ZR := split; [reflexivity|split; [reflexivity|split; [try reflexivity; cbn [set_a0 call_exit s_cb]; assumption|split; [first [apply WR|exact ZR]|split; [intros N; first [reflexivity|exfalso; apply N; cbn [In]; tauto]|cbn [andb]; try reflexivity; symmetry; apply Z.add_0_r]]]]].
Lemma frame (s : semi W) a s' : marked (s_mem s) a -> In (s_a0 s) sys_all -> OnEBreak H b s a = Some s' ->
  s_a1 s' = s_a1 s /\ s_cmd s' = s_cmd s /\ s_cb s' = s_cb s /\ 0 <= s_a0 s' < 2 ^ b /\
  (~ In (s_a0 s) mem_ops -> s_mem s' = s_mem s) /\
  s_exits s' = s_exits s + (if (s_a0 s =? SYS_EXIT) && (exit_reason s =? 0x20026) && s_cb s then 1 else 0).
Proof.
  intros M I E. assert (WR : forall v, 0 <= wrap b v < 2 ^ b) by (intros v; apply wrap_range; destruct HB as [-> | ->]; lia).
  assert (ZR : 0 <= 0 < 2 ^ b) by (destruct HB as [-> | ->]; cbn; lia).
  assert (F : exists f, operation H b (s_a0 s) = Some f).
  { rewrite operation_eq. unfold sys_all in I. cbn [In] in I. repeat destruct I as [I|I]; try contradiction; rewrite <- I; eexists; reflexivity. }
  destruct F as [f F]. rewrite (ebreak_marked H b _ _ _ M F) in E. rewrite operation_eq in F.
  unfold mem_ops, SYS_READ, SYS_TMPNAM, SYS_GET_CMDLINE, SYS_HEAPINFO, SYS_EXIT.
  repeat match type of F with context [s_a0 s =? ?k] => destruct (Z.eqb_spec (s_a0 s) k) as [e|] end; try congruence.
  all: try (destruct (existsb _ _) in F; [|discriminate F]); injection F as <-; try rewrite e; cbn [Z.eqb Pos.eqb andb].
  - unfold SysOpen, ok in E. cbv zeta in E. destruct (_ <? 0); [discriminate|]. destruct (if list_eq_dec Z.eq_dec _ _ then _ else _) as [fd w]. destruct (p_dup H w fd) as [h w2].
    destruct (h <? 0); injection E as <-; fin' WR ZR.
  - unfold SysClose, ok in E. destruct (find _ _); [|injection E as <-; fin' WR ZR]. destruct (_ <=? 2); [injection E as <-; fin' WR ZR|].
    destruct (p_close _ _ _) as [r w]. injection E as <-. destruct (r =? 0); fin' WR ZR.
  - unfold SysWrite, ok in E. destruct (find _ _); [|injection E as <-; fin' WR ZR]. destruct (_ <? 0); [discriminate|].
    destruct (p_write _ _ _ _) as [r w]. injection E as <-. destruct (r <? 0); fin' WR ZR.
  - unfold SysRead, ok in E. destruct (find _ _); [|injection E as <-; fin' WR ZR]. destruct (_ <? 0); [discriminate|].
    destruct (p_read _ _ _ _) as [[r bu] w]. destruct (r <? 0); injection E as <-; fin' WR ZR.
  - unfold SysIsTty, ok in E. destruct (find _ _); [|injection E as <-; fin' WR ZR]. destruct (p_isatty _ _ _) as [r w]. injection E as <-. destruct (r =? 0); fin' WR ZR.
  - unfold SysSeek, ok in E. destruct (find _ _); [|injection E as <-; fin' WR ZR]. destruct (p_lseek _ _ _ _) as [r w]. destruct (r <? 0); injection E as <-; fin' WR ZR.
  - unfold SysFlen, ok in E. destruct (find _ _); [|injection E as <-; fin' WR ZR]. destruct (p_fstat _ _ _) as [[r sz] w]. destruct (r <? 0); injection E as <-; fin' WR ZR.
  - unfold SysTmpnam, ok in E. destruct (_ || _); [injection E as <-; fin' WR ZR|]. destruct (_ <? 20); [injection E as <-; fin' WR ZR|].
    destruct (p_tmpnam _ _ _) as [bu w]. injection E as <-; fin' WR ZR.
  - unfold SysTime, ok in E. destruct (p_time _ _) as [t w]. injection E as <-; fin' WR ZR.
  - injection E as <-; fin' WR ZR.
  - unfold SysGetCmdline, ok in E. destruct (_ <=? _); injection E as <-; fin' WR ZR.
  - injection E as <-; fin' WR ZR.
  - unfold SysException, ok in E. fold (exit_reason s) in E. destruct (_ =? 0x20026); [destruct (s_cb s) eqn:CB|]; injection E as <-; fin' WR ZR.
  - injection E as <-; fin' WR ZR.
  - injection E as <-; fin' WR ZR.
Qed.

Lemma put_same (s : semi W) v : set_a0 s v = put s (View (s_mem s) v (s_a1 s) (s_os s)). Proof. reflexivity. Qed.
Lemma put_bytes_app m a l1 l2 x : length l1 <> 0%nat \/ True -> put_bytes m a (l1 ++ l2) x = put_bytes (put_bytes m (a + Z.of_nat (length l1)) l2) a l1 x.
Proof.
  intros _. unfold put_bytes. rewrite app_length, Nat2Z.inj_add.
  destruct (Z.leb_spec a x), (Z.ltb_spec x (a + Z.of_nat (length l1))); cbn [andb].
  - assert (x <? a + (Z.of_nat (length l1) + Z.of_nat (length l2)) = true) as -> by (apply Z.ltb_lt; lia). rewrite app_nth1 by lia. reflexivity.
  - replace (a + (Z.of_nat (length l1) + Z.of_nat (length l2))) with (a + Z.of_nat (length l1) + Z.of_nat (length l2)) by lia.
    assert (a + Z.of_nat (length l1) <=? x = true) as -> by (apply Z.leb_le; lia). cbn [andb]. destruct (x <? _); [|reflexivity].
    rewrite app_nth2 by lia. f_equal. lia.
  - assert (a + Z.of_nat (length l1) <=? x = false) as -> by (apply Z.leb_gt; lia). reflexivity.
  - assert (a + Z.of_nat (length l1) <=? x = false) as -> by (apply Z.leb_gt; lia). reflexivity.
Qed.
Lemma put_bytes_out m a l x : ~ (a <= x < a + Z.of_nat (length l)) -> put_bytes m a l x = m x.
Proof. clear HB. intros N. unfold put_bytes. destruct (Z.leb_spec a x), (Z.ltb_spec x (a + Z.of_nat (length l))); cbn [andb]; try reflexivity. lia. Qed.
Lemma put_bytes_in m a l x : a <= x < a + Z.of_nat (length l) -> put_bytes m a l x = nth (Z.to_nat (x - a)) l 0.
Proof. clear HB. intros N. unfold put_bytes. destruct (Z.leb_spec a x), (Z.ltb_spec x (a + Z.of_nat (length l))); cbn [andb]; try reflexivity; lia. Qed.
End Q.
Lemma demo_ok : posix_ok demo_host.
Proof.
  assert (R : forall w x, d_is w x = true -> 0 <= x < 16).
  { intros w x. unfold d_is, d_file. destruct (Z.leb_spec 0 x), (Z.ltb_spec x 16); cbn [andb]; try discriminate. lia. }
  assert (N : forall w w' f, d_fds w' = d_fds w -> fds_new (d_is w) (d_is (snd (d_new w' f))) (fst (d_new w' f))).
  { intros w w' f E. unfold fds_new, d_new. destruct (d_free w') as [r|] eqn:F; cbn [fst snd].
    2:{ left. split; [reflexivity|]. intros x. unfold d_is, d_file. now rewrite E. }
    right. unfold d_free in F. apply find_some in F as [F1 F2]. apply in_map_iff in F1 as (k & <- & F1). apply in_seq in F1.
    set (r := Z.of_nat k) in *. assert (0 <= r < 16) by lia. split; [lia|].
    assert (X : forall x, d_is w' x = d_is w x) by (intros x; unfold d_is, d_file; now rewrite E).
    split. { rewrite <- X. now destruct (d_is w' r). }
    intros x. unfold d_is, d_file. cbn [d_fds List.find fst]. rewrite E. destruct (Z.eqb_spec x r) as [-> | NE].
    - rewrite Z.eqb_refl. destruct (Z.leb_spec 0 r), (Z.ltb_spec r 16); try lia. reflexivity.
    - destruct (Z.eqb_spec r x); [congruence|]. reflexivity. }
  assert (F : forall n c, 0 <= n -> length (firstn (Z.to_nat n) (c :: repeat 0 (Z.to_nat n))) = Z.to_nat n).
  { intros n c K. rewrite firstn_length. cbn [length]. rewrite repeat_length. lia. }
  intros w. cbn [demo_host p_open p_dup p_close p_read p_write p_lseek p_fstat p_isatty p_time p_tmpnam p_fds].
  split; [|split; [|split; [|split; [|split; [|split; [|split; [|split; [|split; [|split; [|split]]]]]]]]]].
  - intros x X. apply R in X. lia.
  - intros name fl md. apply N. reflexivity.
  - intros fd. unfold d_is at 3. destruct (d_file w fd) as [f|] eqn:E.
    + split; [apply N; reflexivity|discriminate].
    + split; [left; auto|reflexivity].
  - intros fd X. rewrite X. split; [reflexivity|]. intros x. cbn [snd]. unfold d_is, d_file. cbn [d_fds].
    destruct (Z.eqb_spec x fd) as [-> | NE].
    + destruct (_ && _); [|reflexivity]. clear. induction (d_fds w) as [|[h f] l IH]; cbn [filter List.find fst]; [reflexivity|].
      destruct (Z.eqb_spec h fd); cbn [negb]; [exact IH|]. cbn [List.find fst]. destruct (Z.eqb_spec h fd); [contradiction|exact IH].
    + destruct (_ && _); [|reflexivity]. clear - NE. induction (d_fds w) as [|[h f] l IH]; cbn [filter List.find fst]; [reflexivity|].
      destruct (Z.eqb_spec h fd) as [E|]; cbn [negb]; [destruct (Z.eqb_spec h x); [congruence|exact IH]|]. cbn [List.find fst]. destruct (h =? x); [reflexivity|exact IH].
  - intros fd X. rewrite X. auto.
  - intros fd n P. cbn [fst snd]. split; [destruct (d_is w fd); lia|]. split; [apply F, P|]. split; [|auto].
    destruct (Z.to_nat n) as [|k]; [constructor|]. rewrite firstn_cons. constructor; [lia|]. apply Forall_forall. intros x X.
    assert (In x (repeat 0 (S k))) as Y by (rewrite <- (firstn_skipn k); apply in_or_app; left; exact X). apply repeat_spec in Y. lia.
  - intros fd l. destruct (d_file w fd); cbn [fst snd]; (split; [lia|reflexivity]).
  - reflexivity.
  - reflexivity.
  - reflexivity.
  - reflexivity.
  - reflexivity.
Qed.
