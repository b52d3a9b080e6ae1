(** A small processor and program, and what the debugger does wrong on them (C51, C52). *)
From Coq Require Import ZArith Bool List Lia.
From Verif Require Import Bits Memory DbgSpec DbgModel DbgProofs DbgProofs2.
Import ListNotations.
Local Open Scope Z_scope.

(** Memory holding a list of bytes at an address. *)
Definition bytes_at (a : Z) (l : list Z) : mem := fun x => if (a <=? x) then nth (Z.to_nat (x - a)) l 0 mod 256 else 0.
(** 0x100: addi x1,x1,1   0x104: c.slli x1,1   0x106: j 0x100   0x10a: wfi (requests halt 7) *)
Definition prog : mem := bytes_at 0x100 [0x93; 0x80; 0x10; 0x00; 0x86; 0x00; 0x6f; 0xf0; 0xbf; 0xff; 0x73; 0x00; 0x50; 0x10].
Definition pcs := [0x100; 0x104; 0x106; 0x10a].
Definition prog_pc (a : Z) : Prop := In a pcs.
(** State: x1, cycles; [at_cycle]: when an interrupt arrives; its handler is at 0x100 and it
    saves its return address. *)
Record toy_state := { x1 : Z; cycles : Z; saved : option Z }.
Definition toy (at_cycle : option Z) : cpu toy_state := {|
  sem := fun s w pc =>
    if w =? 0x00108093 then ({| x1 := x1 s + 1; cycles := cycles s; saved := saved s |}, None, None)
    else if w =? 0x0086 then ({| x1 := 2 * x1 s; cycles := cycles s; saved := saved s |}, None, None)
    else if w =? 0xffbff06f then (s, Some (pc - 6), None)
    else if w =? 0x10500073 then (s, Some 0x100, Some 7)
    else (s, Some 0x100, None);
  tick := fun s => {| x1 := x1 s; cycles := cycles s + 1; saved := saved s |};
  irq := fun s epc => if match at_cycle with Some c => cycles s =? c | None => false end then Some ({| x1 := x1 s; cycles := cycles s; saved := Some epc |}, 0x100) else None |}.
Definition toy0 : toy_state := {| x1 := 5; cycles := 0; saved := None |}.

Lemma prog_bytes : byte_mem prog.
Proof. intros x. unfold prog, bytes_at. destruct (_ <=? x); [apply Z.mod_pos_bound; lia|lia]. Qed.
Lemma toy_text k : text (toy k) prog prog_pc.
Proof.
  split.
  - intros s pc [<- | [<- | [<- | [<- | []]]]]; unfold arch_step;
      [change (fetch prog 0x100) with 0x00108093; change (inst_len (prog 0x100)) with 4
      |change (fetch prog 0x104) with 0x0086; change (inst_len (prog 0x104)) with 2
      |change (fetch prog 0x106) with 0xffbff06f; change (inst_len (prog 0x106)) with 4
      |change (fetch prog 0x10a) with 0x10500073; change (inst_len (prog 0x10a)) with 4];
      cbn [toy sem tick irq Z.eqb Pos.eqb x1 cycles saved];
      (destruct k as [k|]; [destruct (_ =? k)|]); cbn [fst snd]; unfold prog_pc, pcs; cbn [In]; lia.
  - intros a b x. unfold inst_bytes, prog_pc.
    assert (inst_len (prog 0x100) = 4 /\ inst_len (prog 0x104) = 2 /\ inst_len (prog 0x106) = 4 /\ inst_len (prog 0x10a) = 4) as (E1 & E2 & E3 & E4) by (repeat split; reflexivity).
    unfold pcs. cbn [In]. intros [<- | [<- | [<- | [<- | []]]]] [<- | [<- | [<- | [<- | []]]]]; rewrite ?E1, ?E2, ?E3, ?E4; lia.
  - intros a [<- | [<- | [<- | [<- | []]]]] _; discriminate.
Qed.

(** A processor that never requests a halt and takes no interrupt stays at an action point. *)
Section Stuck.
  Context {S : Type} (M : cpu S) (a w : Z).
  Hypothesis Hw : w mod 4 = 3 /\ 0 <= w < 2 ^ 32 /\ ~ is_ebreak w.
  Hypothesis Hsem : forall s, exists s' br, sem M s w a = (s', br, None).
  Hypothesis Hirq : forall s e, irq M s e = None.

  Record stuck (t : top S) : Prop := {
    sk_map : am_map (d_am (t_d t)) a = Some (w, 4);
    sk_mem : exists m, am_mem (d_am (t_d t)) = store_le m a 4 0x00100073;
    sk_act : d_act (t_d t) = [(a, false)];
    sk_br : t_branch t = false;
    sk_run : t_halted t = false /\ t_paused t = false }.
  Lemma fetch_store4 m v : v mod 4 = 3 -> 0 <= v < 2 ^ 32 -> fetch (store_le m a 4 v) a = v /\ inst_len (store_le m a 4 v a) = 4.
  Proof.
    intros Hv Hr. assert (load_le (store_le m a 4 v) a 4 = v) as L by (rewrite load_store_same; change (2 ^ (8 * Z.of_nat 4)) with (2 ^ 32); apply Z.mod_small; exact Hr).
    assert (store_le m a 4 v a mod 4 = 3) as E by (rewrite <- (load_mod4 _ a 3), L; exact Hv).
    unfold fetch, inst_len. rewrite E. split; [exact L|reflexivity].
  Qed.
  Lemma stuck_step t : stuck t -> exists t1 n, iterate M t a = (t1, n) /\ t_paused t1 = true /\ t_reason t1 = RAction /\
    let t2 := step_past M t1 in stuck (up_flags t2 RNone (t_halted t2) (t_halted t2) false).
  Proof.
    intros [Km [m Kx] Ka Kb [Kh Kp]]. destruct (fetch_store4 m 0x00100073 eq_refl ltac:(lia)) as [F1 F2].
    unfold iterate, execute, size_at. cbn [up_pc t_d]. rewrite Kx, F1, F2, Ka.
    assert (active [(a, false)] a = true) as -> by (unfold active; cbn; rewrite Z.eqb_refl; reflexivity).
    change (1048691 =? 36866) with false. change (1048691 =? 1048691) with true. cbn [orb andb].
    unfold ebreak_handler. cbn [up_pc t_d]. rewrite Ka.
    assert (existsb (fun p : Z * bool => (fst p =? a) && snd p) [(a, false)] = false) as -> by (cbn; rewrite Z.eqb_refl; reflexivity).
    unfold take_irq. rewrite Hirq.
    cbn [request_halt up_pc up_s up_d up_flags up_trace t_s t_d t_branch t_halted t_paused t_reason t_need t_icount t_bt t_log t_pc]. rewrite Kb.
    do 2 eexists. split; [reflexivity|].
    split; [cbn; reflexivity|]. split; [reflexivity|]. cbv zeta.
    unfold step_past, take_irq, size_at.
    cbn [request_halt up_pc up_s up_d up_flags up_trace t_s t_d t_branch t_halted t_paused t_reason t_need t_icount t_bt t_log t_pc d_am d_act].
    unfold write_original. rewrite Km. change (4 =? 2) with false. change (4 =? 4) with true. cbn [fst]. rewrite Kx.
    destruct Hw as (W1 & W2 & W3). destruct (fetch_store4 (store_le m a 4 0x00100073) w W1 W2) as [G1 G2].
    unfold execute. cbn [up_pc up_s up_d up_flags up_trace t_d d_am am_mem am_map t_s]. rewrite G1, G2.
    assert ((w =? 36866) || (w =? 1048691) = false) as ->.
    { apply orb_false_iff. split; apply Z.eqb_neq; intros E; apply W3; unfold is_ebreak; lia. }
    cbn [andb]. destruct (Hsem (tick M (t_s t))) as (s' & br & ->).
    destruct br as [tg|];
      cbn [request_halt up_pc up_s up_d up_flags up_trace t_s t_d t_branch t_halted t_paused t_reason t_need t_icount t_bt t_log t_pc d_am d_act];
      rewrite Hirq; cbn [request_halt up_pc up_s up_d up_flags up_trace t_s t_d t_branch t_halted t_paused t_reason t_need t_icount t_bt t_log t_pc d_am d_act];
      rewrite ?Kb; unfold write_breakpoint; cbn [am_map]; rewrite Km; cbn [fst]; unfold plant; change (4 =? 2) with false; change (4 =? 4) with true;
      (split; cbn [request_halt up_pc up_s up_d up_flags up_trace t_s t_d t_branch t_halted t_paused t_reason t_need t_icount t_bt t_log t_pc d_am d_act am_map am_mem];
       [exact Km|eexists; reflexivity|exact Ka|reflexivity|rewrite Kh; split; reflexivity]).
  Qed.
  Lemma stuck_loop fuel : forall t nx c, stuck t -> snd (loop M fuel t a nx c) = false.
  Proof.
    induction fuel as [|f IH]; intros t nx c K; cbn [loop]; rewrite (proj2 (sk_run _ K)); [reflexivity|].
    destruct (stuck_step t K) as (t1 & n & Ei & E1 & E2 & E3). rewrite Ei, E1, E2. cbn [negb]. apply IH, E3.
  Qed.
End Stuck.

Definition at_point (a : Z) (bp : bool) (t : top toy_state) : top toy_state := up_d t (fst (set_point (t_d t) a bp)).
(** 0x200: addi x1,x1,1   0x204: wfi (requests halt 7): halts after two instructions. *)
Definition prog2 : mem := bytes_at 0x200 [0x93; 0x80; 0x10; 0x00; 0x73; 0x00; 0x50; 0x10].
Lemma run_livelock fuel : run (toy None) fuel (at_point 0x200 false (top_init toy0 0x200 prog2)) = None.
Proof.
  set (t := at_point 0x200 false (top_init toy0 0x200 prog2)). unfold run.
  change (t_need t) with false. cbv iota. set (t1 := up_flags t RNone false false (t_need t)).
  change (t_pc t1) with 0x200.
  destruct (loop (toy None) fuel t1 0x200 0x200 0) as [[[[t2 p] n] c] d] eqn:E.
  assert (d = false) as ->; [|reflexivity].
  change d with (snd (t2, p, n, c, d)). rewrite <- E.
  apply (stuck_loop (toy None) 0x200 0x00108093).
  - split; [reflexivity|]. split; [lia|]. unfold is_ebreak. lia.
  - intros s. eexists _, _. reflexivity.
  - reflexivity.
  - split; try reflexivity; [exists prog2; reflexivity|split; reflexivity].
Qed.
Definition T0 := top_init toy0 0x100 prog.
Definition show (r : option (top toy_state * Z)) : option (Z * Z * Z * reason) :=
  match r with Some (t, c) => Some (x1 (t_s t), t_pc t, c, t_reason t) | None => None end.
Definition after_step k t n := match step (toy k) t n with Some (t', _) => t' | None => t end.
Definition dbg_call (t : top toy_state) (o : dbg_op) : top toy_state := up_d t (dbg_step (t_d t) o).
Definition see (t : top toy_state) (l : list Z) : list Z := map (am_mem (d_am (t_d t))) l.

(** Deciding the side conditions on examples. *)
Definition apartb (m : mem) (a b : Z) : bool := (a + inst_len (m a) <=? b) || (b + inst_len (m b) <=? a).
Definition dbg_goodb (v : view) (o : dbg_op) : bool :=
  match o with
  | SetBp a => forallb (fun b => (b =? a) || apartb (v_mem v) a b) (v_act v)
  | Poke a n _ => forallb (fun b => (b + inst_len (v_mem v b) <=? a) || (a + Z.of_nat n <=? b)) (v_ever v)
  | _ => true
  end.
Fixpoint dbg_all_goodb (v : view) (l : list dbg_op) : bool :=
  match l with [] => true | o :: l => dbg_goodb v o && dbg_all_goodb (view_step v o) l end.
Lemma dbg_goodb_ok v o : dbg_goodb v o = true -> dbg_good v o.
Proof.
  destruct o; cbn [dbg_goodb dbg_good]; intros H; try exact Logic.I; rewrite forallb_forall in H.
  - intros b x Hb Ne Ha Hx. specialize (H b Hb). unfold apartb, inst_bytes in *.
    apply orb_true_iff in H as [H|H]; [apply Z.eqb_eq in H; contradiction|]. apply orb_true_iff in H as [H|H]; apply Z.leb_le in H; lia.
  - intros b x Hb Hx. specialize (H b Hb). unfold inst_bytes in *. apply orb_true_iff in H as [H|H]; apply Z.leb_le in H; lia.
Qed.
Lemma dbg_all_goodb_ok l : forall v, dbg_all_goodb v l = true -> dbg_all_good v l.
Proof.
  induction l as [|o l IH]; intros v H; [exact Logic.I|]. cbn [dbg_all_goodb] in H. apply andb_true_iff in H as [H1 H2].
  split; [apply dbg_goodb_ok; exact H1|apply IH; exact H2].
Qed.
Definition sess_goodb {S} (M : cpu S) (pcs : list Z) (x : sview S) (o : sess_op) : bool :=
  match o with
  | Dbg (SetBp a) => inb a pcs && negb ((fetch (v_mem (sv_v x)) a =? 0x9002) || (fetch (v_mem (sv_v x)) a =? 0x00100073))
  | Dbg (ClearBp a) => negb (sv_resume x) || negb (a =? sv_pc x)
  | Dbg ClearAll => negb (sv_resume x)
  | Dbg (Look _) => true
  | Dbg (Poke _ _ _) => false
  | WritePc v => inb v pcs && negb (sv_resume x)
  | Step n => let o := step_outcome M x n in
              match o_why o, irq M (o_s o) (o_pc o + inst_len (v_mem (sv_v x) (o_pc o))) with AtBreakpoint, Some _ => false | _, _ => true end
  end.
Fixpoint sess_all_goodb {S} (M : cpu S) (pcs : list Z) (x : sview S) (l : list sess_op) : bool :=
  match l with [] => true | o :: l => sess_goodb M pcs x o && sess_all_goodb M pcs (fst (sview_step M x o)) l end.
Lemma sess_goodb_ok {S} (M : cpu S) pcs x o : sess_goodb M pcs x o = true -> sess_good M (fun a => In a pcs) x o.
Proof.
  destruct o as [[a|a| |a|a n v]|n|v]; cbn [sess_goodb sess_good]; intros H.
  - apply andb_true_iff in H as [H1 H2]. split; [apply inb_in; exact H1|]. apply negb_true_iff, orb_false_iff in H2 as [H2 H3].
    apply Z.eqb_neq in H2, H3. unfold is_ebreak. tauto.
  - intros R. rewrite R in H. apply negb_true_iff, Z.eqb_neq in H. exact H.
  - apply negb_true_iff. exact H.
  - exact Logic.I.
  - discriminate.
  - cbv zeta in *. intros E. rewrite E in H. destruct (irq _ _ _); [discriminate|reflexivity].
  - apply andb_true_iff in H as [H1 H2]. split; [apply inb_in; exact H1|]. apply negb_true_iff. exact H2.
Qed.
Lemma sess_all_goodb_ok {S} (M : cpu S) pcs l : forall x, sess_all_goodb M pcs x l = true -> sess_all_good M (fun a => In a pcs) x l.
Proof.
  induction l as [|o l IH]; intros x H; [exact Logic.I|]. cbn [sess_all_goodb] in H. apply andb_true_iff in H as [H1 H2].
  split; [apply sess_goodb_ok; exact H1|apply IH; exact H2].
Qed.
