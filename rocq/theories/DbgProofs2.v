(** Stepping (C52). *)
From Coq Require Import ZArith Bool List Lia.
From Verif Require Import Bits Memory DbgSpec DbgModel DbgProofs.
Import ListNotations.
Local Open Scope Z_scope.

Definition flags {S} (t : top S) := (t_reason t, t_halted t, t_paused t, t_need t).

(** Instruction at [pc] whose bytes are the program's. *)
Lemma execute_plain {S} (M : cpu S) (t : top S) m pc :
  fetch (am_mem (d_am (t_d t))) pc = fetch m pc ->
  (active (d_act (t_d t)) pc = false \/ ~ is_ebreak (fetch m pc)) ->
  execute M t pc =
    let '(s, br, h) := sem M (t_s t) (fetch m pc) pc in
    let t1 := up_s t s in
    let t2 := match br with Some a => up_pc t1 a true | None => t1 end in
    match h with Some r => request_halt t2 (ROther r) | None => t2 end.
Proof.
  intros F N. unfold execute. rewrite F. destruct (_ && _) eqn:E; [|reflexivity].
  apply andb_true_iff in E as [E1 E2]. destruct N as [N|N]; [congruence|]. destruct N. unfold is_ebreak.
  apply orb_true_iff in E1 as [E1|E1]; apply Z.eqb_eq in E1; auto.
Qed.

(** One iteration on such an instruction is one step of the program. *)
Lemma iterate_plain {S} (M : cpu S) (t : top S) m pc :
  fetch (am_mem (d_am (t_d t))) pc = fetch m pc -> inst_len (am_mem (d_am (t_d t)) pc) = inst_len (m pc) ->
  active (d_act (t_d t)) pc = false -> t_branch t = false -> t_halted t = false -> t_paused t = false ->
  let '(s', pc', h) := arch_step M m (t_s t) pc in
  exists t1, iterate M t pc = (t1, pc') /\ t_s t1 = s' /\ t_d t1 = t_d t /\ t_branch t1 = false /\
    t_icount t1 = t_icount t + 1 /\ t_log t1 = t_log t /\
    flags t1 = match h with Some r => (ROther r, true, true, t_need t) | None => (t_reason t, false, false, t_need t) end.
Proof.
  intros F L A B H Pz. unfold iterate, arch_step.
  rewrite (execute_plain M (up_pc t pc (t_branch t)) m pc F (or_introl A)). unfold size_at.
  cbn [up_pc up_s t_s t_d t_branch]. rewrite L.
  destruct (sem M (t_s t) (fetch m pc) pc) as [[s br] h]. unfold take_irq.
  destruct br as [tg|], h as [r|]; cbn [request_halt up_pc up_s up_flags up_trace t_s t_d t_branch t_halted t_paused t_reason t_need t_icount t_bt t_log t_pc];
    rewrite ?B; destruct (irq _ _ _) as [[s3 hpc]|];
    cbn [request_halt up_pc up_s up_flags up_trace t_s t_d t_branch t_halted t_paused t_reason t_need t_icount t_bt t_log t_pc];
    rewrite ?B; eexists; repeat split; unfold flags;
    cbn [request_halt up_pc up_s up_flags up_trace t_s t_d t_branch t_halted t_paused t_reason t_need t_icount t_bt t_log t_pc];
    rewrite ?B, ?H, ?Pz; reflexivity.
Qed.

(** At a breakpoint the iteration only lets a cycle pass. *)
Lemma iterate_bp {S} (M : cpu S) (t : top S) pc :
  is_ebreak (fetch (am_mem (d_am (t_d t))) pc) -> existsb (fun p => (fst p =? pc) && snd p) (d_act (t_d t)) = true ->
  t_branch t = false -> t_halted t = false -> t_paused t = false ->
  irq M (tick M (t_s t)) (pc + inst_len (am_mem (d_am (t_d t)) pc)) = None ->
  exists t1 n, iterate M t pc = (t1, n) /\ t_s t1 = tick M (t_s t) /\ t_d t1 = t_d t /\ t_branch t1 = false /\
    t_icount t1 = t_icount t + 1 /\ t_log t1 = t_log t /\ flags t1 = (RSwBreak, true, true, true).
Proof.
  intros F A B H Pz Q. unfold iterate, execute. cbn [up_pc t_d].
  assert (active (d_act (t_d t)) pc = true) as Ac.
  { apply existsb_exists in A as (p & Hp & E). apply andb_true_iff in E as [E _]. unfold active. apply existsb_exists. exists p; auto. }
  rewrite Ac, andb_true_r.
  assert ((fetch (am_mem (d_am (t_d t))) pc =? 36866) || (fetch (am_mem (d_am (t_d t))) pc =? 1048691) = true) as ->.
  { destruct F as [-> | ->]; reflexivity. }
  unfold ebreak_handler. cbn [up_pc t_d]. rewrite A. unfold take_irq, size_at.
  cbn [request_halt up_pc up_s up_flags up_trace t_s t_d t_branch t_halted t_paused t_reason t_need t_icount t_bt t_log t_pc].
  rewrite ?B, Q. cbn [request_halt up_pc up_s up_flags up_trace t_s t_d t_branch t_halted t_paused t_reason t_need t_icount t_bt t_log t_pc].
  do 2 eexists. split; [reflexivity|].
  unfold flags. cbn [request_halt up_pc up_s up_flags up_trace t_s t_d t_branch t_halted t_paused t_reason t_need t_icount t_bt t_log t_pc].
  rewrite ?B. repeat split.
Qed.

(** ** Facts about a debugger in step with the user's view *)
Lemma bp_bytes v d a : dinv v d -> In a (v_act v) -> is_ebreak (fetch (am_mem (d_am d)) a) /\ inst_len (am_mem (d_am d) a) = inst_len (v_mem v a).
Proof.
  intros I A. pose proof (fun x => di_on v d I a x A) as O. unfold inst_bytes, ebreak_byte in O. unfold fetch, inst_len in *.
  destruct (v_mem v a mod 4 =? 3); cbn [Z.eqb Pos.eqb] in O.
  - pose proof (O a ltac:(lia)) as O0. pose proof (O (a + 1) ltac:(lia)) as O1. pose proof (O (a + 1 + 1) ltac:(lia)) as O2.
    pose proof (O (a + 1 + 1 + 1) ltac:(lia)) as O3.
    replace (a - a) with 0 in O0 by lia. replace (a + 1 - a) with 1 in O1 by lia. replace (a + 1 + 1 - a) with 2 in O2 by lia.
    replace (a + 1 + 1 + 1 - a) with 3 in O3 by lia. cbn in O0, O1, O2, O3. cbn [load_le]. rewrite O0, O1, O2, O3. split; [right; reflexivity|reflexivity].
  - pose proof (O a ltac:(lia)) as O0. pose proof (O (a + 1) ltac:(lia)) as O1.
    replace (a - a) with 0 in O0 by lia. replace (a + 1 - a) with 1 in O1 by lia. cbn in O0, O1. cbn [load_le].
    rewrite O0, O1. split; [left; reflexivity|reflexivity].
Qed.
Lemma bp_entry v d a : dinv v d -> In a (v_act v) -> existsb (fun p => (fst p =? a) && snd p) (d_act d) = true.
Proof.
  intros I A. rewrite <- (di_act v d I) in A. apply in_map_iff in A as (p & <- & Hp). apply existsb_exists. exists p. split; [assumption|].
  rewrite Z.eqb_refl, (di_bp v d I p Hp). reflexivity.
Qed.
Lemma plain_bytes v d (P : Z -> Prop) a : dinv v d -> (forall b, In b (v_act v) -> P b) ->
  (forall p q x, P p -> P q -> inst_bytes (v_mem v) p x -> inst_bytes (v_mem v) q x -> p = q) ->
  P a -> ~ In a (v_act v) ->
  fetch (am_mem (d_am d)) a = fetch (v_mem v) a /\ inst_len (am_mem (d_am d) a) = inst_len (v_mem v a).
Proof.
  intros I HP AP Pa N. apply fetch_ext. intros x Hx. apply (di_off v d I). intros b Hb Xb. apply N.
  rewrite (AP a b x); auto.
Qed.

(** ** The loop *)
Section Prog.
  Context {S : Type} (M : cpu S) (v : view) (P : Z -> Prop).
  Hypothesis T : text M (v_mem v) P.
  Hypothesis AP : forall b, In b (v_act v) -> P b.
  Let bp := fun a => inb a (v_act v).

  Definition expect (o : outcome S) (t : top S) : Prop :=
    t_s t = o_s o /\ t_branch t = false /\ P (o_pc o) /\ (o_why o = AtBreakpoint -> In (o_pc o) (v_act v)) /\
    flags t = match o_why o with
              | Finished => (RNone, false, false, false)
              | AtBreakpoint => (RSwBreak, true, true, true)
              | Requested r => (ROther r, true, true, false)
              end.

  Lemma loop_ok n : forall t pc c o, dinv v (t_d t) -> P pc -> t_branch t = false -> flags t = (RNone, false, false, false) ->
    o = debug_run M (v_mem v) bp false n (t_s t) pc c ->
    (o_why o = AtBreakpoint -> irq M (o_s o) (o_pc o + inst_len (v_mem v (o_pc o))) = None) ->
    exists t' pf nf k, loop M n t pc pc c = (t', pf, nf, o_count o, k) /\ t_d t' = t_d t /\ expect o t' /\
      (o_why o = AtBreakpoint -> pf = o_pc o) /\ (o_why o <> AtBreakpoint -> nf = o_pc o) /\ (k = true <-> o_why o <> Finished) /\
      t_icount t' - t_icount t = o_count o - c.
  Proof.
    induction n as [|n IH]; intros t pc c o I Pp B Fl E Q.
    - cbn [debug_run] in E. subst o. cbn [loop]. assert (t_paused t = false) as -> by (unfold flags in Fl; congruence).
      exists t, pc, pc, false. cbn [o_why o_s o_pc o_count]. unfold expect. cbn [o_why o_s o_pc o_count].
      repeat split; try assumption; try reflexivity; try congruence; try lia; discriminate.
    - cbn [debug_run] in E. cbn [loop]. assert (t_paused t = false) as Pz by (unfold flags in Fl; congruence). rewrite Pz.
      assert (t_halted t = false) as Hz by (unfold flags in Fl; congruence).
      rewrite andb_true_r in E. destruct (bp pc) eqn:Bp.
      + apply inb_in in Bp. subst o. cbn [o_why o_s o_pc o_count] in *. specialize (Q eq_refl).
        destruct (bp_bytes v _ pc I Bp) as [F1 F2]. rewrite <- F2 in Q.
        destruct (iterate_bp M t pc F1 (bp_entry v _ pc I Bp) B Hz Pz Q) as (t1 & nx & Ei & E1 & E2 & E3 & E4 & E5 & E6).
        rewrite Ei. assert (t_paused t1 = true) as -> by (unfold flags in E6; congruence).
        assert (t_reason t1 = RSwBreak) as -> by (unfold flags in E6; congruence). cbn [negb].
        exists t1, pc, nx, true. unfold expect. cbn [o_why o_s o_pc o_count]. repeat split; try assumption; try congruence; try lia.
      + apply inb_false in Bp. destruct (plain_bytes v _ P pc I AP (text_apart _ _ _ T) Pp Bp) as [F1 F2].
        assert (active (d_act (t_d t)) pc = false) as A by (rewrite active_inb, (di_act v _ I); apply inb_false; assumption).
        pose proof (iterate_plain M t (v_mem v) pc F1 F2 A B Hz Pz) as It.
        pose proof (text_closed _ _ _ T (t_s t) pc Pp) as Pn.
        destruct (arch_step M (v_mem v) (t_s t) pc) as [[s' pc'] h]. cbn [fst snd] in Pn.
        destruct It as (t1 & Ei & E1 & E2 & E3 & E4 & E5 & E6). rewrite Ei. destruct h as [r|].
        * subst o. cbn [o_why o_s o_pc o_count] in *.
          assert (t_paused t1 = true) as -> by (unfold flags in E6; congruence).
          assert (t_reason t1 = ROther r) as -> by (unfold flags in E6; congruence). cbn [negb].
          exists t1, pc, pc', true. unfold expect. cbn [o_why o_s o_pc o_count].
          repeat split; try assumption; try congruence; try lia. rewrite E6. unfold flags in Fl. congruence.
        * assert (t_paused t1 = false) as -> by (unfold flags in E6; congruence). cbn [negb].
          rewrite <- E1 in E. rewrite <- E2 in I.
          assert (flags t1 = (RNone, false, false, false)) as Fl1 by (rewrite E6; unfold flags in Fl; congruence).
          destruct (IH t1 pc' (c + 1) o I Pn E3 Fl1 E Q) as (t' & pf & nf & k & R1 & R2 & R3 & R4 & R5 & R6 & R7).
          exists t', pf, nf, k. rewrite R1. split; [reflexivity|]. split; [congruence|]. repeat split; try assumption; try lia; apply R6 || apply R3.
  Qed.
End Prog.

(** ** Stepping past a breakpoint *)
Lemma step_past_ok {S} (M : cpu S) (v : view) (t : top S) :
  dinv v (t_d t) -> In (t_pc t) (v_act v) -> ~ is_ebreak (fetch (v_mem v) (t_pc t)) ->
  t_branch t = false ->
  let '(s', pc', h) := arch_step M (v_mem v) (t_s t) (t_pc t) in
  let t' := step_past M t in
  t_s t' = s' /\ t_pc t' = pc' /\ dinv v (t_d t') /\ t_branch t' = false /\ t_icount t' = t_icount t + 1 /\ t_log t' = t_log t /\
  flags t' = match h with Some r => (ROther r, true, t_paused t, t_need t) | None => flags t end.
Proof.
  intros I A N B. pose proof (di_ever _ _ I _ A) as Ev.
  destruct (write_original_ok v _ (t_pc t) I Ev) as (_ & _ & W3 & _).
  destruct (fetch_ext _ _ _ W3) as [F1 F2].
  pose proof (replant_ok v _ _ I A) as R.
  unfold step_past, arch_step, size_at. cbn [up_d t_d d_am].
  rewrite (execute_plain M (up_d t {| d_am := fst (write_original (d_am (t_d t)) (t_pc t)); d_act := d_act (t_d t) |}) (v_mem v) (t_pc t) F1 (or_intror N)).
  rewrite F2. cbn [up_d t_s].
  destruct (sem M (t_s t) (fetch (v_mem v) (t_pc t)) (t_pc t)) as [[s br] h]. unfold take_irq.
  destruct br as [tg|], h as [r|]; cbn [request_halt up_d up_pc up_s up_flags up_trace t_s t_d t_branch t_halted t_paused t_reason t_need t_icount t_bt t_log t_pc d_am d_act];
    rewrite ?B; destruct (irq _ _ _) as [[s3 hpc]|];
    cbn [request_halt up_d up_pc up_s up_flags up_trace t_s t_d t_branch t_halted t_paused t_reason t_need t_icount t_bt t_log t_pc d_am d_act];
    rewrite ?B; unfold flags;
    cbn [request_halt up_d up_pc up_s up_flags up_trace t_s t_d t_branch t_halted t_paused t_reason t_need t_icount t_bt t_log t_pc d_am d_act];
    repeat (match goal with |- _ /\ _ => split end); try exact R; reflexivity.
Qed.

Lemma debug_run_resume {S} (M : cpu S) m bp n s pc c :
  debug_run M m bp true (Datatypes.S n) s pc c =
    let '(s', pc', h) := arch_step M m s pc in
    match h with
    | Some r => {| o_s := s'; o_pc := pc'; o_count := c + 1; o_why := Requested r |}
    | None => debug_run M m bp false n s' pc' (c + 1)
    end.
Proof. cbn [debug_run negb]. rewrite andb_false_r. reflexivity. Qed.

(** ** Step *)
Record sinv {S} (M : cpu S) (m : mem) (P : Z -> Prop) (x : sview S) (t : top S) : Prop := {
  si_d : dinv (sv_v x) (t_d t);
  si_m : v_mem (sv_v x) = m;
  si_act : forall b, In b (v_act (sv_v x)) -> P b /\ ~ is_ebreak (fetch m b);
  si_s : t_s t = sv_s x;
  si_pc : t_pc t = sv_pc x;
  si_p : P (sv_pc x);
  si_br : t_branch t = false;
  si_need : t_need t = sv_resume x;
  si_at : sv_resume x = true -> In (sv_pc x) (v_act (sv_v x)) }.


Lemma settle_ok {S} (v : view) (P : Z -> Prop) (o : outcome S) (t : top S) pf nf :
  expect v P o t -> (o_why o = AtBreakpoint -> pf = o_pc o) -> (o_why o <> AtBreakpoint -> nf = o_pc o) ->
  settle t pf nf = up_pc t (o_pc o) false.
Proof.
  intros (E1 & E2 & E3 & E4 & E5) Hp Hn. unfold settle, flags in *. rewrite E2. destruct (o_why o).
  - assert (t_reason t = RNone) as -> by congruence. rewrite Hn by discriminate. reflexivity.
  - assert (t_reason t = RSwBreak) as -> by congruence. rewrite Hp by reflexivity. reflexivity.
  - assert (t_reason t = ROther r) as -> by congruence. rewrite Hn by discriminate. reflexivity.
Qed.

Lemma step_ok {S} (M : cpu S) m P (x : sview S) (t : top S) n : text M m P -> sinv M m P x t -> 0 < n ->
  let o := step_outcome M x n in
  (o_why o = AtBreakpoint -> irq M (o_s o) (o_pc o + inst_len (m (o_pc o))) = None) ->
  exists t', step M t n = Some (t', o_count o) /\ sinv M m P (fst (sview_step M x (Step n))) t' /\
    t_reason t' = reason_of (o_why o) /\ t_icount t' = t_icount t + o_count o.
Proof.
  intros T I Hn o Q. pose proof (si_d _ _ _ _ _ I) as D. pose proof (si_m _ _ _ _ _ I) as Em.
  assert (forall b, In b (v_act (sv_v x)) -> P b) as AP by (intros b Hb; apply (si_act _ _ _ _ _ I b Hb)).
  unfold step. destruct (n <=? 0) eqn:E0; [lia|]. clear E0.
  set (t0 := up_flags t RNone false false (t_need t)).
  assert (exists t1 c, (if t_need t0 then
      let t' := step_past M (up_flags t0 RNone false false false) in
      (up_flags t' (t_reason t') (t_halted t') (t_paused t' || t_halted t') (t_need t'), 1)
    else (t0, 0)) = (t1, c) /\ exists t' pf nf k, loop M (Z.to_nat (n - c)) t1 (t_pc t1) (t_pc t1) c = (t', pf, nf, o_count o, k) /\
      dinv (sv_v x) (t_d t') /\ expect (sv_v x) P o t' /\ (o_why o = AtBreakpoint -> pf = o_pc o) /\ (o_why o <> AtBreakpoint -> nf = o_pc o) /\
      t_icount t' = t_icount t + o_count o) as (t1 & c & Ec & t' & pf & nf & k & L1 & L2 & L3 & L4 & L5 & L6).
  { assert (t_need t0 = sv_resume x) as Nd by (cbn; apply (si_need _ _ _ _ _ I)). rewrite Nd. subst o. unfold step_outcome in *.
    rewrite Em in *.
    destruct (sv_resume x) eqn:R.
    - assert (exists k, Z.to_nat n = Datatypes.S k /\ Z.to_nat (n - 1) = k) as (k & Hk0 & Hk) by (exists (Z.to_nat (n - 1)); lia). rewrite Hk0 in *.
      rewrite debug_run_resume in *.
      set (ts := up_flags t0 RNone false false false).
      pose proof (si_at _ _ _ _ _ I R) as A. rewrite <- (si_pc _ _ _ _ _ I) in A.
      pose proof (step_past_ok M (sv_v x) ts D A) as K. change (t_pc ts) with (t_pc t) in K. change (t_s ts) with (t_s t) in K.
      rewrite Em in K. specialize (K (proj2 (si_act _ _ _ _ _ I _ A)) (si_br _ _ _ _ _ I)).
      change (flags ts) with (RNone, false, false, false) in K. change (t_paused ts) with false in K. change (t_need ts) with false in K.
      rewrite (si_s _ _ _ _ _ I), (si_pc _ _ _ _ _ I) in K.
      pose proof (text_closed _ _ _ T (sv_s x) (sv_pc x) (si_p _ _ _ _ _ I)) as Pn.
      destruct (arch_step M m (sv_s x) (sv_pc x)) as [[s' pc'] h]. cbn [fst snd] in Pn. cbv zeta in K.
      destruct K as (K1 & K2 & K3 & K4 & K5 & K6 & K7). change (t_icount ts) with (t_icount t) in K5.
      cbv zeta. eexists _, 1. split; [reflexivity|]. rewrite Hk. set (tp := step_past M ts) in *.
      destruct h as [r|].
      + assert (t_halted tp = true /\ t_reason tp = ROther r /\ t_need tp = false) as (H1 & H2 & H3) by (unfold flags in K7; repeat split; congruence).
        exists (up_flags tp (ROther r) true true false), pc', pc', true. cbn [o_count o_why o_pc o_s].
        rewrite H1, H2, H3, orb_true_r. split; [|split; [exact K3|split; [|repeat split; try discriminate; cbn; lia]]].
        * destruct k; cbn [loop up_flags t_paused t_pc]; rewrite K2; reflexivity.
        * unfold expect. cbn [o_count o_why o_pc o_s up_flags t_s t_branch]. repeat split; try assumption; discriminate.
      + assert (t_halted tp = false /\ t_reason tp = RNone /\ t_need tp = false /\ t_paused tp = false) as (H1 & H2 & H3 & H4) by (unfold flags in K7; repeat split; congruence).
        rewrite H1, H2, H3, H4. cbn [orb]. set (tq := up_flags tp RNone false false false).
        replace s' with (t_s tq) in * by (cbn; exact K1). change (t_pc tq) with (t_pc tp). rewrite K2.
        rewrite <- Em in T, Q.
        pose proof (loop_ok M (sv_v x) P T AP k tq pc' (0 + 1) _ K3 Pn K4 eq_refl eq_refl Q) as L. rewrite Em in L.
        destruct L as (t' & pf & nf & k' & R1 & R2 & R3 & R4 & R5 & R6 & R7).
        exists t', pf, nf, k'. split; [exact R1|]. split; [rewrite R2; exact K3|]. repeat split; try assumption; try apply R3.
        change (t_icount tq) with (t_icount tp) in R7. lia.
    - exists t0, 0. split; [reflexivity|]. replace (n - 0) with n by lia. change (t_pc t0) with (t_pc t).
      rewrite <- (si_s _ _ _ _ _ I) in *. rewrite <- (si_pc _ _ _ _ _ I) in *. rewrite <- Em in T, Q.
      assert (flags t0 = (RNone, false, false, false)) as F0 by (unfold flags; rewrite Nd; reflexivity).
      pose proof (si_p _ _ _ _ _ I) as Pp. rewrite <- (si_pc _ _ _ _ _ I) in Pp.
      pose proof (loop_ok M (sv_v x) P T AP (Z.to_nat n) t0 (t_pc t) 0 _ D Pp (si_br _ _ _ _ _ I) F0 eq_refl Q) as L. rewrite Em in L.
      destruct L as (t' & pf & nf & k' & R1 & R2 & R3 & R4 & R5 & R6 & R7).
      exists t', pf, nf, k'. split; [exact R1|]. split; [rewrite R2; exact D|]. repeat split; try assumption; try apply R3.
      change (t_icount t0) with (t_icount t) in R7. change (t_s t0) with (t_s t) in R7. lia. }
  cbv zeta in Ec |- *. rewrite Ec, L1. rewrite (settle_ok _ _ _ _ _ _ L3 L4 L5). destruct L3 as (E1 & E2 & E3 & E4 & E5).
  eexists. split; [reflexivity|]. cbn [up_pc t_halted].
  assert (forall u, sinv M m P (fst (sview_step M x (Step n))) u /\ t_reason u = reason_of (o_why o) /\ t_icount u = t_icount t + o_count o <->
      (t_d u = t_d u /\ dinv (sv_v x) (t_d u)) /\ t_s u = o_s o /\ t_pc u = o_pc o /\ t_branch u = false /\
      t_need u = match o_why o with AtBreakpoint => true | _ => false end /\
      t_reason u = reason_of (o_why o) /\ t_icount u = t_icount t + o_count o) as KEY.
  { intros u. cbn [sview_step]. destruct (n <=? 0) eqn:E0; [lia|]. cbn [fst]. fold o. split.
    - intros ([] & H2 & H3). cbn [sv_s sv_pc sv_v sv_resume] in *. repeat (match goal with |- _ /\ _ => split end); assumption || reflexivity.
    - intros ((_ & H1) & H2 & H3 & H4 & H5 & H6 & H7). split; [|split; assumption]. split; cbn [sv_s sv_pc sv_v sv_resume]; try assumption.
      + apply (si_act _ _ _ _ _ I).
      + intros Hw. apply E4. destruct (o_why o); congruence. }
  apply KEY. unfold flags in E5.
  destruct (o_why o).
  - assert (t_halted t' = false /\ t_need t' = false) as (-> & ?) by (split; congruence). cbn. repeat (match goal with |- _ /\ _ => split end); assumption || reflexivity.
  - assert (t_halted t' = true /\ t_need t' = true /\ t_reason t' = RSwBreak) as (-> & ? & ?) by (repeat split; congruence). cbn. repeat (match goal with |- _ /\ _ => split end); assumption || reflexivity.
  - assert (t_halted t' = true /\ t_need t' = false /\ t_reason t' = ROther r) as (-> & ? & ?) by (repeat split; congruence). cbn. repeat (match goal with |- _ /\ _ => split end); assumption || reflexivity.
Qed.

(** ** Sessions *)
Lemma sess_step_ok {S} (M : cpu S) m P (x : sview S) (t : top S) o : text M m P -> sinv M m P x t -> sess_good M P x o ->
  sinv M m P (fst (sview_step M x o)) (fst (sess_step M t o)) /\
  snd (sess_step M t o) = option_map (fun r => (fst r, reason_of (snd r))) (snd (sview_step M x o)).
Proof.
  intros T I G. pose proof (si_d _ _ _ _ _ I) as D. pose proof (si_m _ _ _ _ _ I) as Em. destruct o as [o|n|v].
  - cbn [sview_step sess_step fst snd]. split; [|reflexivity].
    assert (dbg_good (sv_v x) o) as G'.
    { destruct o; cbn [dbg_good]; try exact Logic.I; [|destruct G]. destruct G as [G1 G2].
      intros b y Hb Ne Hy Hb'. rewrite Em in *. apply Ne. apply (text_apart _ _ _ T b a y); try assumption.
      apply (si_act _ _ _ _ _ I b Hb). }
    split; cbn [sv_s sv_pc sv_v sv_resume up_d t_d t_s t_pc t_branch t_need]; [ | | |apply I|apply I|exact (si_p _ _ _ _ _ I)|apply I|apply I|].
    + apply dbg_step_ok; assumption.
    + destruct o; cbn [view_step v_mem]; try assumption; [|destruct G]. destruct (_ || _); assumption.
    + intros b Hb. destruct o; cbn [view_step v_act] in Hb; try (apply (si_act _ _ _ _ _ I b Hb)).
      * destruct (_ || _); [apply (si_act _ _ _ _ _ I b Hb)|]. cbn [v_act] in Hb. apply in_app_or in Hb as [Hb|[<-|[]]]; [apply (si_act _ _ _ _ _ I b Hb)|].
        rewrite <- Em. exact G.
      * apply filter_In in Hb as [Hb _]. apply (si_act _ _ _ _ _ I b Hb).
      * destruct Hb.
    + intros R. pose proof (si_at _ _ _ _ _ I R) as A. destruct o; cbn [view_step v_act]; try assumption.
      * destruct (_ || _); [assumption|]. cbn [v_act]. apply in_or_app; left; assumption.
      * apply filter_In. split; [assumption|]. cbn [sess_good] in G. specialize (G R). apply negb_true_iff, Z.eqb_neq. congruence.
      * cbn [sess_good] in G. congruence.
  - destruct (Z_le_gt_dec n 0) as [Hn|Hn].
    + cbn [sview_step sess_step]. unfold step. destruct (n <=? 0) eqn:E; [|lia]. cbn. split; [exact I|reflexivity].
    + cbn [sess_good] in G. cbv zeta in G. rewrite Em in G.
      destruct (step_ok M m P x t n T I ltac:(lia) G) as (t' & E1 & E2 & E3 & E4).
      split; cbn [sess_step]; rewrite E1; cbn [fst snd]; [exact E2|]. cbn [sview_step]. destruct (n <=? 0) eqn:E; [lia|].
      cbn [snd option_map fst]. rewrite E3. reflexivity.
  - cbn [sess_good] in G. destruct G as [G1 G2]. cbn [sview_step sess_step fst snd]. split; [|reflexivity].
    unfold write_pc. split; cbn [sv_s sv_pc sv_v sv_resume]; try assumption; try discriminate.
    1,3,4,5: destruct (t_reason t); cbn [up_pc up_flags t_d t_s t_pc t_branch t_need]; try apply I; try reflexivity; rewrite (si_need _ _ _ _ _ I); assumption.
    apply (si_act _ _ _ _ _ I).
    all: destruct (t_reason t); cbn [up_pc up_flags t_d t_s t_pc t_branch t_need]; try apply I; try reflexivity; rewrite (si_need _ _ _ _ _ I); assumption.
Qed.
Lemma sess_run_ok {S} (M : cpu S) m P l : text M m P -> forall (x : sview S) (t : top S), sinv M m P x t -> sess_all_good M P x l ->
  sinv M m P (fst (sview_run M x l)) (fst (sess_run M t l)) /\
  snd (sess_run M t l) = map (option_map (fun r => (fst r, reason_of (snd r)))) (snd (sview_run M x l)).
Proof.
  intros T. induction l as [|o l IH]; intros x t I G; [split; [exact I|reflexivity]|].
  destruct G as [G1 G2]. destruct (sess_step_ok M m P x t o T I G1) as [K1 K2].
  cbn [sview_run sess_run]. destruct (sview_step M x o) as [x1 r]. destruct (sess_step M t o) as [t1 r']. cbn [fst snd] in *.
  destruct (IH x1 t1 K1 G2) as [L1 L2]. destruct (sview_run M x1 l) as [x2 rs], (sess_run M t1 l) as [t2 rs']. cbn [fst snd map] in *.
  split; [exact L1|]. rewrite K2, L2. reflexivity.
Qed.

Lemma session_main {S} (M : cpu S) m P s pc l : byte_mem m -> text M m P -> P pc -> sess_all_good M P (sview_init s pc m) l ->
  let x := sview_run M (sview_init s pc m) l in let t := sess_run M (top_init s pc m) l in
  t_s (fst t) = sv_s (fst x) /\ t_pc (fst t) = sv_pc (fst x) /\
  snd t = map (option_map (fun r => (fst r, reason_of (snd r)))) (snd x) /\
  (forall y, (forall a, In a (v_act (sv_v (fst x))) -> ~ inst_bytes m a y) -> am_mem (d_am (t_d (fst t))) y = m y).
Proof.
  intros B T Pp G x t.
  assert (sinv M m P (sview_init s pc m) (top_init s pc m)) as I.
  { split; try reflexivity; try assumption; try discriminate; [apply dinv_init; assumption|intros b []]. }
  destruct (sess_run_ok M m P l T _ _ I G) as [K1 K2]. fold x t in K1, K2.
  split; [apply K1|]. split; [apply K1|]. split; [exact K2|]. intros y Hy.
  pose proof (di_off _ _ (si_d _ _ _ _ _ K1) y) as O. rewrite (si_m _ _ _ _ _ K1) in O. apply O, Hy.
Qed.

(** ** Run *)
Lemma debug_run_count {S} (M : cpu S) m bp n : forall r s pc c, o_count (debug_run M m bp r n s pc c) = o_count (debug_run M m bp r n s pc 0) + c /\
  o_s (debug_run M m bp r n s pc c) = o_s (debug_run M m bp r n s pc 0) /\ o_pc (debug_run M m bp r n s pc c) = o_pc (debug_run M m bp r n s pc 0) /\
  o_why (debug_run M m bp r n s pc c) = o_why (debug_run M m bp r n s pc 0).
Proof.
  induction n as [|n IH]; intros r s pc c; cbn [debug_run]; [cbn [o_count o_s o_pc o_why]; repeat split; lia|].
  destruct (_ && _); [cbn [o_count o_s o_pc o_why]; repeat split; lia|]. destruct (arch_step M m s pc) as [[s' pc'] [h|]]; [cbn [o_count o_s o_pc o_why]; repeat split; lia|].
  destruct (IH false s' pc' (c + 1)) as (A1 & A2 & A3 & A4). destruct (IH false s' pc' (0 + 1)) as (B1 & B2 & B3 & B4).
  rewrite A1, A2, A3, A4, B1, B2, B3, B4. repeat split; lia.
Qed.
Definition after {S} (x : sview S) (o : outcome S) : sview S :=
  {| sv_s := o_s o; sv_pc := o_pc o; sv_v := sv_v x; sv_resume := match o_why o with AtBreakpoint => true | _ => false end |}.
Lemma run_ok {S} (M : cpu S) m P (x : sview S) (t : top S) fuel : text M m P -> sinv M m P x t ->
  (sv_resume x = true -> snd (arch_step M m (sv_s x) (sv_pc x)) = None) ->
  let o := run_outcome M x fuel in
  (o_why o = AtBreakpoint -> irq M (o_s o) (o_pc o + inst_len (m (o_pc o))) = None) ->
  match o_why o with
  | Finished => run M fuel t = None
  | w => exists t', run M fuel t = Some t' /\ sinv M m P (after x o) t' /\ t_reason t' = reason_of w /\ t_icount t' = t_icount t + o_count o
  end.
Proof.
  intros T I Nh o Q. pose proof (si_d _ _ _ _ _ I) as D. pose proof (si_m _ _ _ _ _ I) as Em.
  assert (forall b, In b (v_act (sv_v x)) -> P b) as AP by (intros b Hb; apply (si_act _ _ _ _ _ I b Hb)).
  unfold run.
  set (t0 := if t_need t then step_past M (up_flags t (t_reason t) (t_halted t) (t_paused t) false) else t).
  set (t1 := up_flags t0 RNone false false (t_need t0)).
  assert (exists t' pf nf k c', loop M fuel t1 (t_pc t1) (t_pc t1) 0 = (t', pf, nf, c', k) /\
      dinv (sv_v x) (t_d t') /\ expect (sv_v x) P o t' /\ (o_why o = AtBreakpoint -> pf = o_pc o) /\ (o_why o <> AtBreakpoint -> nf = o_pc o) /\
      (k = true <-> o_why o <> Finished) /\
      t_icount t' = t_icount t + o_count o) as (t' & pf & nf & k & c' & L1 & L2 & L3 & L4 & L5 & LK & L6).
  { subst o. unfold run_outcome in *. rewrite Em in *. unfold t1. clear t1. unfold t0. clear t0. rewrite (si_need _ _ _ _ _ I) in *.
    destruct (sv_resume x) eqn:R.
    - rewrite debug_run_resume in *. specialize (Nh eq_refl).
      set (ts := up_flags t (t_reason t) (t_halted t) (t_paused t) false).
      pose proof (si_at _ _ _ _ _ I R) as A. rewrite <- (si_pc _ _ _ _ _ I) in A.
      pose proof (step_past_ok M (sv_v x) ts D A) as K. change (t_pc ts) with (t_pc t) in K. change (t_s ts) with (t_s t) in K.
      rewrite Em in K. specialize (K (proj2 (si_act _ _ _ _ _ I _ A)) (si_br _ _ _ _ _ I)).
      rewrite (si_s _ _ _ _ _ I), (si_pc _ _ _ _ _ I) in K.
      pose proof (text_closed _ _ _ T (sv_s x) (sv_pc x) (si_p _ _ _ _ _ I)) as Pn.
      destruct (arch_step M m (sv_s x) (sv_pc x)) as [[s' pc'] h]. cbn [fst snd] in Pn, Nh. subst h. cbv zeta in K.
      destruct K as (K1 & K2 & K3 & K4 & K5 & K6 & K7). change (t_icount ts) with (t_icount t) in K5.
      set (tp := step_past M ts) in *. assert (t_need tp = false) as -> by (unfold flags in K7; cbn in K7; congruence).
      set (tq := up_flags tp RNone false false false).
      replace s' with (t_s tq) in * by (cbn; exact K1). change (t_pc tq) with (t_pc tp). rewrite K2.
      rewrite <- Em in T, Q.
      set (bp := fun a : Z => inb a (v_act (sv_v x))) in *.
      destruct (debug_run_count M (v_mem (sv_v x)) bp fuel false (t_s tq) pc' (0 + 1)) as (C1 & C2 & C3 & C4).
      rewrite C2, C3, C4 in Q.
      pose proof (loop_ok M (sv_v x) P T AP fuel tq pc' 0 _ K3 Pn K4 eq_refl eq_refl Q) as L. fold bp in L.
      rewrite Em in *. destruct L as (t' & pf & nf & k' & R1 & R2 & R3 & R4 & R5 & R6 & R7).
      rewrite C3, C4. exists t', pf, nf, k', (o_count (debug_run M m bp false fuel (t_s tq) pc' 0)). split; [exact R1|].
      split; [rewrite R2; exact K3|]. split; [unfold expect in *; rewrite C2, C3, C4; exact R3|].
      split; [exact R4|]. split; [exact R5|]. split; [exact R6|].
      change (t_icount tq) with (t_icount tp) in R7. lia.
    - rewrite (si_need _ _ _ _ _ I), R. set (t0 := up_flags t RNone false false false). change (t_pc t0) with (t_pc t).
      rewrite <- (si_s _ _ _ _ _ I) in *. rewrite <- (si_pc _ _ _ _ _ I) in *. rewrite <- Em in T, Q.
      pose proof (si_p _ _ _ _ _ I) as Pp. rewrite <- (si_pc _ _ _ _ _ I) in Pp.
      pose proof (loop_ok M (sv_v x) P T AP fuel t0 (t_pc t) 0 _ D Pp (si_br _ _ _ _ _ I) eq_refl eq_refl Q) as L. rewrite Em in L.
      destruct L as (t' & pf & nf & k' & R1 & R2 & R3 & R4 & R5 & R6 & R7).
      exists t', pf, nf, k'. eexists. split; [exact R1|]. split; [rewrite R2; exact D|]. repeat split; try assumption; try apply R3; try apply R6.
      change (t_icount t0) with (t_icount t) in R7. change (t_s t0) with (t_s t) in R7. lia. }
  rewrite L1. rewrite (settle_ok _ _ _ _ _ _ L3 L4 L5). destruct L3 as (E1 & E2 & E3 & E4 & E5).
  assert (forall w, w = o_why o -> w <> Finished -> exists t'0, (if k then Some (up_pc t' (o_pc o) false) else None) = Some t'0 /\
     sinv M m P (after x o) t'0 /\ t_reason t'0 = reason_of w /\ t_icount t'0 = t_icount t + o_count o) as KEY.
  { intros w -> Nw. assert (k = true) as -> by (apply LK; assumption). eexists. split; [reflexivity|]. unfold flags in E5. split; [|split].
    - split; cbn [after sv_s sv_pc sv_v sv_resume up_pc t_d t_s t_pc t_branch t_need]; try assumption; try reflexivity.
      + apply (si_act _ _ _ _ _ I).
      + destruct (o_why o); congruence.
      + intros Hw. apply E4. destruct (o_why o); congruence.
    - cbn [up_pc t_reason]. destruct (o_why o); cbn [reason_of]; congruence.
    - exact L6. }
  destruct (o_why o) eqn:W.
  - destruct k; [|reflexivity]. destruct (proj1 LK eq_refl eq_refl).
  - apply KEY; [reflexivity|discriminate].
  - apply KEY; [reflexivity|discriminate].
Qed.
Lemma run_main {S} (M : cpu S) m P s pc l fuel : byte_mem m -> text M m P -> P pc -> sess_all_good M P (sview_init s pc m) l ->
  let x := fst (sview_run M (sview_init s pc m) l) in let t := fst (sess_run M (top_init s pc m) l) in
  (sv_resume x = true -> snd (arch_step M m (sv_s x) (sv_pc x)) = None) ->
  let o := run_outcome M x fuel in
  (o_why o = AtBreakpoint -> irq M (o_s o) (o_pc o + inst_len (m (o_pc o))) = None) ->
  match o_why o with
  | Finished => run M fuel t = None
  | w => exists t', run M fuel t = Some t' /\ t_s t' = o_s o /\ t_pc t' = o_pc o /\ t_reason t' = reason_of w
  end.
Proof.
  intros B T Pp G x t Nh o Q.
  assert (sinv M m P (sview_init s pc m) (top_init s pc m)) as I.
  { split; try reflexivity; try assumption; try discriminate; [apply dinv_init; assumption|intros b []]. }
  destruct (sess_run_ok M m P l T _ _ I G) as [K1 _]. fold x t in K1.
  pose proof (run_ok M m P x t fuel T K1 Nh) as R. cbv zeta in R. fold o in R. specialize (R Q).
  destruct (o_why o); [exact R| |]; destruct R as (t' & R1 & R2 & R3 & _); exists t';
    (split; [exact R1|split; [exact (si_s _ _ _ _ _ R2)|split; [exact (si_pc _ _ _ _ _ R2)|exact R3]]]).
Qed.
