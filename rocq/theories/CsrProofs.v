From Coq Require Import ZArith Bool List String Lia.
From Verif Require Import Bits CsrSpec CsrModel.
Import ListNotations.
Local Open Scope Z_scope.

(** Well-formed register: width 32 or 64, contents and masks representable in T. *)
Definition csr_wf (c : simple_csr) : Prop :=
  (cs_w c = 32 \/ cs_w c = 64) /\
  inw (cs_w c) (cs_value c) /\ inw (cs_w c) (cs_rmask c) /\ inw (cs_w c) (cs_wmask c).

Lemma csr_wf_w c : csr_wf c -> 0 <= cs_w c.
Proof. intros [[H|H] _]; lia. Qed.

Lemma csr_set_wf v c : csr_wf c -> csr_wf (csr_set v c).
Proof.
  intros H. pose proof (csr_wf_w c H). destruct H as (Hw & Hv & Hr & Hm).
  unfold csr_wf, csr_set, with_value; cbn. ssplit; try assumption; apply wrap_range; assumption.
Qed.

Lemma csr_step_masks aw c o :
  cs_w (csr_step aw c o) = cs_w c /\ cs_rmask (csr_step aw c o) = cs_rmask c
  /\ cs_wmask (csr_step aw c o) = cs_wmask c.
Proof. destruct o; ssplit; reflexivity. Qed.

Lemma csr_step_wf aw c o : csr_wf c -> csr_wf (csr_step aw c o).
Proof. intros; destruct o; apply csr_set_wf; assumption. Qed.

Lemma csr_write_bit aw v c i : csr_wf c -> cs_w c <= aw -> 0 <= i < cs_w c ->
  Z.testbit (cs_value (csr_write aw v c)) i =
  if Z.testbit (cs_wmask c) i then Z.testbit v i else Z.testbit (cs_value c) i.
Proof.
  intros H Ha Hi. pose proof (csr_wf_w c H) as Hw.
  unfold csr_write, csr_set, with_value, get_uint; cbn [cs_value].
  bnorm.
  replace (i <? cs_w c) with true by lia. replace (i <? aw) with true by lia. cbn [andb].
  destruct (Z.testbit (cs_wmask c) i), (Z.testbit v i), (Z.testbit (cs_value c) i); reflexivity.
Qed.

Lemma csr_step_bit aw c o i : csr_wf c -> cs_w c <= aw -> 0 <= i < cs_w c ->
  Z.testbit (cs_value (csr_step aw c o)) i =
  if Z.testbit (cs_wmask c) i then bit_step i (Z.testbit (cs_value c) i) o
  else Z.testbit (cs_value c) i.
Proof.
  intros H Ha Hi. pose proof (csr_wf_w c H) as Hw.
  destruct o; cbn [csr_step bit_step]; unfold csr_set_bits, csr_clear_bits, get_uint;
    rewrite csr_write_bit by assumption; bnorm;
    replace (i <? aw) with true by lia; cbn [andb];
    destruct (Z.testbit (cs_wmask c) i), (Z.testbit v i), (Z.testbit (cs_value c) i); reflexivity.
Qed.

Lemma csr_run_masks aw c ops :
  cs_w (fold_left (csr_step aw) ops c) = cs_w c /\ cs_rmask (fold_left (csr_step aw) ops c) = cs_rmask c
  /\ cs_wmask (fold_left (csr_step aw) ops c) = cs_wmask c.
Proof.
  revert c; induction ops as [|o ops IH]; intros c; cbn [fold_left]; [ssplit; reflexivity|].
  destruct (csr_step_masks aw c o) as (E1 & E2 & E3), (IH (csr_step aw c o)) as (F1 & F2 & F3).
  rewrite F1, F2, F3; auto.
Qed.

Lemma csr_run_wf aw c ops : csr_wf c -> csr_wf (fold_left (csr_step aw) ops c).
Proof.
  revert c; induction ops as [|o ops IH]; intros c H; cbn [fold_left]; [exact H|].
  apply IH, csr_step_wf, H.
Qed.

Lemma csr_run_bit aw c ops i : csr_wf c -> cs_w c <= aw -> 0 <= i < cs_w c ->
  Z.testbit (cs_value (fold_left (csr_step aw) ops c)) i =
  if Z.testbit (cs_wmask c) i then bit_run i (Z.testbit (cs_value c) i) ops
  else Z.testbit (cs_value c) i.
Proof.
  revert c; induction ops as [|o ops IH]; intros c H Ha Hi; cbn [fold_left]; unfold bit_run.
  - cbn [fold_left]; destruct (Z.testbit (cs_wmask c) i); reflexivity.
  - destruct (csr_step_masks aw c o) as (E1 & E2 & E3).
    rewrite IH; [|apply csr_step_wf; assumption|rewrite E1; assumption|rewrite E1; assumption].
    rewrite E3, csr_step_bit by assumption. cbn [fold_left]. unfold bit_run.
    destruct (Z.testbit (cs_wmask c) i); reflexivity.
Qed.

Lemma csr_read_bit aw c i : csr_wf c -> cs_w c <= aw -> 0 <= i ->
  Z.testbit (as_uint aw c) i =
  (i <? cs_w c) && (Z.testbit (cs_value c) i && Z.testbit (cs_rmask c) i).
Proof.
  intros H Ha Hi. pose proof (csr_wf_w c H) as Hw. destruct H as (_ & Hv & Hr & Hm).
  unfold as_uint, get_uint. bnorm.
  destruct (Z.ltb_spec i (cs_w c)).
  - replace (i <? aw) with true by lia. reflexivity.
  - rewrite (inw_testbit_high (cs_w c) (cs_value c)) by (assumption || lia).
    destruct (i <? aw); reflexivity.
Qed.

Lemma csr_history_main aw c ops : csr_wf c -> cs_w c <= aw ->
  (forall i, 0 <= i ->
     Z.testbit (as_uint aw (fold_left (csr_step aw) ops c)) i =
     (i <? cs_w c) && Z.testbit (cs_rmask c) i &&
     (if Z.testbit (cs_wmask c) i then bit_run i (Z.testbit (cs_value c) i) ops
      else Z.testbit (cs_value c) i)).
Proof.
  intros H Ha i Hi. destruct (csr_run_masks aw c ops) as (E1 & E2 & E3).
  rewrite csr_read_bit; [|apply csr_run_wf; assumption|rewrite E1; assumption|assumption].
  rewrite E1, E2. destruct (Z.ltb_spec i (cs_w c)); cbn [andb]; [|reflexivity].
  rewrite csr_run_bit by (assumption || lia). apply andb_comm.
Qed.

(** ** Shadow *)
Definition shadow_wf (s : shadow_csr) : Prop :=
  csr_wf (sh_base s) /\ inw (cs_w (sh_base s)) (sh_rmask s) /\ inw (cs_w (sh_base s)) (sh_wmask s).

Lemma shadow_write_bit aw v s i : shadow_wf s -> cs_w (sh_base s) <= aw -> 0 <= i < cs_w (sh_base s) ->
  Z.testbit (cs_value (sh_base (shadow_write aw v s))) i =
  if Z.testbit (sh_wmask s) i && Z.testbit (cs_wmask (sh_base s)) i
  then Z.testbit v i else Z.testbit (cs_value (sh_base s)) i.
Proof.
  intros (Hb & Hr & Hm) Ha Hi. pose proof (csr_wf_w _ Hb) as Hw.
  unfold shadow_write. destruct (Z.eqb_spec (sh_wmask s) 0) as [E|E].
  - rewrite E, Z.bits_0. reflexivity.
  - cbn [sh_base with_base]. rewrite csr_write_bit by (assumption || lia).
    unfold get_uint. bnorm.
    replace (i <? cs_w (sh_base s)) with true by lia. replace (i <? aw) with true by lia. cbn [andb].
    destruct (Z.testbit (sh_wmask s) i), (Z.testbit (cs_wmask (sh_base s)) i), (Z.testbit v i),
      (Z.testbit (cs_value (sh_base s)) i); reflexivity.
Qed.

Lemma view_step_frame aw s vo :
  cs_w (sh_base (view_step aw s vo)) = cs_w (sh_base s) /\
  cs_rmask (sh_base (view_step aw s vo)) = cs_rmask (sh_base s) /\
  cs_wmask (sh_base (view_step aw s vo)) = cs_wmask (sh_base s) /\
  sh_rmask (view_step aw s vo) = sh_rmask s /\ sh_wmask (view_step aw s vo) = sh_wmask s.
Proof.
  destruct vo as [[|] o]; unfold view_step; cbn [fst snd].
  - destruct (csr_step_masks aw (sh_base s) o) as (E1 & E2 & E3). cbn. auto.
  - destruct o; unfold shadow_step, shadow_write; destruct (sh_wmask s =? 0); cbn; auto.
Qed.

Lemma shadow_write_wf aw v s : shadow_wf s -> shadow_wf (shadow_write aw v s).
Proof.
  intros H. unfold shadow_write. destruct (sh_wmask s =? 0); [assumption|].
  destruct H as (Hb & Hr & Hm). unfold shadow_wf. cbn [sh_base with_base sh_rmask sh_wmask].
  split; [apply csr_set_wf; assumption|]. split; assumption.
Qed.

Lemma view_step_wf aw s vo : shadow_wf s -> shadow_wf (view_step aw s vo).
Proof.
  intros H. destruct vo as [[|] o]; unfold view_step; cbn [fst snd].
  - destruct H as (Hb & Hr & Hm). destruct (csr_step_masks aw (sh_base s) o) as (E1 & E2 & E3).
    split; [cbn; apply csr_step_wf; assumption|]. cbn. rewrite E1. auto.
  - destruct o; apply shadow_write_wf; assumption.
Qed.

Lemma view_step_bit aw s v o i : shadow_wf s -> cs_w (sh_base s) <= aw -> 0 <= i < cs_w (sh_base s) ->
  Z.testbit (cs_value (sh_base (view_step aw s (v, o)))) i =
  if reaches (cs_wmask (sh_base s)) (sh_wmask s) i v
  then bit_step i (Z.testbit (cs_value (sh_base s)) i) o
  else Z.testbit (cs_value (sh_base s)) i.
Proof.
  intros H Ha Hi. pose proof (csr_wf_w _ (proj1 H)) as Hw.
  destruct v; unfold view_step; cbn [fst snd reaches with_base sh_base].
  - apply csr_step_bit; [apply H|assumption|assumption].
  - destruct o; cbn [shadow_step bit_step]; unfold get_uint;
      rewrite shadow_write_bit by assumption; bnorm;
      replace (i <? aw) with true by lia; cbn [andb]; reflexivity.
Qed.

Lemma view_run_frame aw s ops :
  let s' := fold_left (view_step aw) ops s in
  cs_w (sh_base s') = cs_w (sh_base s) /\
  cs_rmask (sh_base s') = cs_rmask (sh_base s) /\
  cs_wmask (sh_base s') = cs_wmask (sh_base s) /\
  sh_rmask s' = sh_rmask s /\ sh_wmask s' = sh_wmask s.
Proof.
  revert s; induction ops as [|o ops IH]; intros s; cbn [fold_left]; [cbn; auto|].
  destruct (IH (view_step aw s o)) as (A & B & C & D & E).
  destruct (view_step_frame aw s o) as (A' & B' & C' & D' & E').
  cbn. rewrite A, B, C, D, E. auto.
Qed.

Lemma view_run_wf aw s ops : shadow_wf s -> shadow_wf (fold_left (view_step aw) ops s).
Proof. revert s; induction ops; intros; cbn [fold_left]; auto. apply IHops, view_step_wf; assumption. Qed.

Lemma view_run_bit aw s ops i : shadow_wf s -> cs_w (sh_base s) <= aw -> 0 <= i < cs_w (sh_base s) ->
  Z.testbit (cs_value (sh_base (fold_left (view_step aw) ops s))) i =
  bit_run2 (cs_wmask (sh_base s)) (sh_wmask s) i (Z.testbit (cs_value (sh_base s)) i) ops.
Proof.
  revert s; induction ops as [|[v o] ops IH]; intros s H Ha Hi; cbn [fold_left]; [reflexivity|].
  destruct (view_step_frame aw s (v, o)) as (E1 & E2 & E3 & E4 & E5).
  rewrite IH; [|apply view_step_wf; assumption|rewrite E1; assumption|rewrite E1; assumption].
  rewrite E3, E5, view_step_bit by assumption. unfold bit_run2. cbn [fold_left]. reflexivity.
Qed.

Lemma shadow_read_bit aw s i : shadow_wf s -> cs_w (sh_base s) <= aw -> 0 <= i ->
  Z.testbit (shadow_as_uint aw s) i =
  (i <? cs_w (sh_base s)) && (Z.testbit (cs_value (sh_base s)) i &&
    (Z.testbit (cs_rmask (sh_base s)) i && Z.testbit (sh_rmask s) i)).
Proof.
  intros H Ha Hi. pose proof (csr_wf_w _ (proj1 H)) as Hw.
  unfold shadow_as_uint. bnorm. rewrite csr_read_bit by (apply H || assumption).
  destruct (Z.ltb_spec i (cs_w (sh_base s))); cbn [andb]; [|destruct (i <? aw); reflexivity].
  replace (i <? aw) with true by lia. cbn [andb].
  rewrite andb_assoc. reflexivity.
Qed.

Lemma shadow_history_main aw s ops : shadow_wf s -> cs_w (sh_base s) <= aw ->
  let s' := fold_left (view_step aw) ops s in
  (forall i, 0 <= i < cs_w (sh_base s) ->
     Z.testbit (cs_value (sh_base s')) i =
     bit_run2 (cs_wmask (sh_base s)) (sh_wmask s) i (Z.testbit (cs_value (sh_base s)) i) ops) /\
  (forall i, 0 <= i ->
     Z.testbit (shadow_as_uint aw s') i =
     (i <? cs_w (sh_base s)) && Z.testbit (sh_rmask s) i && Z.testbit (cs_rmask (sh_base s)) i &&
     bit_run2 (cs_wmask (sh_base s)) (sh_wmask s) i (Z.testbit (cs_value (sh_base s)) i) ops).
Proof.
  intros H Ha s'. split; [intros; apply view_run_bit; assumption|].
  intros i Hi. destruct (view_run_frame aw s ops) as (E1 & E2 & E3 & E4 & E5). fold s' in E1, E2, E3, E4, E5.
  rewrite shadow_read_bit; [|apply view_run_wf; assumption|rewrite E1; assumption|assumption].
  rewrite E1, E2, E4. destruct (Z.ltb_spec i (cs_w (sh_base s))); cbn [andb]; [|reflexivity].
  unfold s'. rewrite view_run_bit by (assumption || lia).
  destruct (bit_run2 _ _ _ _ _), (Z.testbit (cs_rmask (sh_base s)) i), (Z.testbit (sh_rmask s) i); reflexivity.
Qed.

(** A shadow with an empty write mask never changes the base. *)
Lemma shadow_readonly aw s o : sh_wmask s = 0 -> sh_base (shadow_step aw s o) = sh_base s.
Proof. intros E. destruct o; unfold shadow_step, shadow_write; rewrite E; reflexivity. Qed.

(** ** The CSR table *)
Definition tbl_rel (s : csr_set_t) (live : list csr_obj) : Prop :=
  cm_name s = map (fun c => (co_name c, c)) live /\
  cm_index s = map (fun c => (co_index c, c)) live /\
  NoDup (map co_name live) /\ NoDup (map co_index live).

Lemma find_name_map n live :
  find_name n (map (fun c => (co_name c, c)) live) = find (has_name n) live.
Proof.
  unfold find_name. induction live as [|c live IH]; [reflexivity|]. cbn [map find fst].
  unfold has_name at 1. destruct (String.eqb (co_name c) n); [reflexivity|exact IH].
Qed.
Lemma find_index_map i live :
  find_index i (map (fun c => (co_index c, c)) live) = find (has_index i) live.
Proof.
  unfold find_index. induction live as [|c live IH]; [reflexivity|]. cbn [map find fst].
  unfold has_index at 1. destruct (co_index c =? i); [reflexivity|exact IH].
Qed.

Lemma find_existsb {A} (f : A -> bool) l :
  match find f l with Some _ => existsb f l = true | None => existsb f l = false end.
Proof.
  induction l as [|a l IH]; cbn; [reflexivity|]. destruct (f a); [reflexivity|].
  destruct (find f l); assumption.
Qed.

Lemma filter_map_name (c : csr_obj) live : NoDup (map co_name live) -> NoDup (map co_index live) ->
  In c live ->
  filter (fun p : string * csr_obj => negb (String.eqb (fst p) (co_name c))) (map (fun c => (co_name c, c)) live)
  = map (fun c => (co_name c, c)) (filter (fun d => negb (has_index (co_index c) d)) live).
Proof.
  intros Nn Ni Hin.
  assert (forall d, In d live -> String.eqb (co_name d) (co_name c) = has_index (co_index c) d) as E.
  { clear -Nn Ni Hin. induction live as [|e live IH]; [intros d []|].
    cbn [map] in Nn, Ni. apply NoDup_cons_iff in Nn, Ni. destruct Nn as [Nn1 Nn2], Ni as [Ni1 Ni2].
    intros d Hd. unfold has_index.
    destruct Hin as [<-|Hin].
    - destruct Hd as [<-|Hd].
      + rewrite String.eqb_refl, Z.eqb_refl; reflexivity.
      + destruct (String.eqb_spec (co_name d) (co_name e)) as [E|E];
          [exfalso; apply Nn1; rewrite <- E; apply in_map; assumption|].
        destruct (Z.eqb_spec (co_index d) (co_index e)) as [E2|E2]; [|reflexivity].
        exfalso; apply Ni1; rewrite <- E2; apply in_map; assumption.
    - destruct Hd as [<-|Hd].
      + destruct (String.eqb_spec (co_name e) (co_name c)) as [E|E];
          [exfalso; apply Nn1; rewrite E; apply in_map; assumption|].
        destruct (Z.eqb_spec (co_index e) (co_index c)) as [E2|E2]; [|reflexivity].
        exfalso; apply Ni1; rewrite E2; apply in_map; assumption.
      + apply (IH Nn2 Ni2 Hin d Hd). }
  clear Nn Ni Hin. induction live as [|e live IH]; [reflexivity|].
  cbn [map filter fst]. rewrite E by (left; reflexivity).
  destruct (has_index (co_index c) e); cbn [negb map]; rewrite IH by (intros; apply E; right; assumption); reflexivity.
Qed.

Lemma filter_map_index i live :
  filter (fun p : Z * csr_obj => negb (fst p =? i)) (map (fun c => (co_index c, c)) live)
  = map (fun c => (co_index c, c)) (filter (fun d => negb (has_index i d)) live).
Proof.
  induction live as [|e live IH]; [reflexivity|]. cbn [map filter fst]. unfold has_index at 1.
  destruct (co_index e =? i); cbn [negb map]; rewrite IH; reflexivity.
Qed.

Lemma NoDup_map_filter {A B} (g : A -> B) f l : NoDup (map g l) -> NoDup (map g (filter f l)).
Proof.
  induction l as [|a l IH]; intros H; [constructor|]. cbn [map] in H.
  apply NoDup_cons_iff in H. destruct H as [H1 H2]. cbn [filter].
  destruct (f a); [|auto]. cbn [map]. constructor; [|auto].
  intros C. apply H1. apply in_map_iff in C. destruct C as (x & E & Hx).
  apply filter_In in Hx. rewrite <- E. apply in_map, Hx.
Qed.

Lemma existsb_orb_split_aux {A} (f g : A -> bool) l :
  existsb (fun d => f d || g d) l = existsb f l || existsb g l.
Proof.
  induction l as [|a l IH]; cbn; [reflexivity|]. rewrite IH.
  destruct (f a), (g a), (existsb f l), (existsb g l); reflexivity.
Qed.

Lemma tbl_step_refines s live o : tbl_rel s live ->
  tbl_rel (fst (csr_set_step s o)) (fst (tbl_spec live o)) /\
  snd (csr_set_step s o) = snd (tbl_spec live o).
Proof.
  intros (Hn & Hi & Dn & Di). destruct o as [[c|]|i|n|i]; cbn [csr_set_step tbl_spec].
  - rewrite Hi, Hn, find_index_map, find_name_map.
    pose proof (find_existsb (has_index (co_index c)) live) as Fi.
    pose proof (find_existsb (has_name (co_name c)) live) as Fn.
    rewrite existsb_orb_split_aux.
    destruct (find (has_index (co_index c)) live).
    + rewrite Fi, orb_true_r. unfold tbl_rel; cbn; auto 6.
    + destruct (find (has_name (co_name c)) live).
      * rewrite Fn. unfold tbl_rel; cbn; auto 6.
      * rewrite Fn, Fi. unfold tbl_rel; cbn; ssplit.
        -- reflexivity.
        -- reflexivity.
        -- constructor; [|assumption]. intros C. apply in_map_iff in C. destruct C as (d & E & Hd).
           assert (existsb (has_name (co_name c)) live = true); [|congruence].
           apply existsb_exists. exists d. split; [assumption|]. unfold has_name. apply String.eqb_eq, E.
        -- constructor; [|assumption]. intros C. apply in_map_iff in C. destruct C as (d & E & Hd).
           assert (existsb (has_index (co_index c)) live = true); [|congruence].
           apply existsb_exists. exists d. split; [assumption|]. unfold has_index. lia.
        -- reflexivity.
  - unfold tbl_rel; cbn; auto 6.
  - rewrite Hi, Hn, find_index_map.
    pose proof (find_existsb (has_index i) live) as Fi.
    destruct (find (has_index i) live) as [c|] eqn:Ef.
    + rewrite Fi, find_name_map. apply find_some in Ef. destruct Ef as [Hin Hix].
      pose proof (find_existsb (has_name (co_name c)) live) as Fn.
      assert (existsb (has_name (co_name c)) live = true) as Ex.
      { apply existsb_exists. exists c. split; [assumption|]. unfold has_name. apply String.eqb_refl. }
      destruct (find (has_name (co_name c)) live); [|congruence].
      assert (i = co_index c) as -> by (unfold has_index in Hix; lia).
      cbn [fst snd]. split; [|reflexivity]. unfold tbl_rel; cbn [cm_name cm_index].
      rewrite filter_map_name, filter_map_index by assumption.
      ssplit; try reflexivity; apply NoDup_map_filter; assumption.
    + rewrite Fi. unfold tbl_rel; cbn; auto 6.
  - rewrite Hn, find_name_map. unfold tbl_rel; cbn; auto 6.
  - rewrite Hi, find_index_map. unfold tbl_rel; cbn; auto 6.
Qed.

Lemma tbl_run_refines s live ops : tbl_rel s live ->
  tbl_rel (fst (run csr_set_step s ops)) (fst (run tbl_spec live ops)) /\
  snd (run csr_set_step s ops) = snd (run tbl_spec live ops).
Proof.
  revert s live; induction ops as [|o ops IH]; intros s live H; [split; [exact H|reflexivity]|].
  cbn [run]. destruct (tbl_step_refines s live o H) as [H1 H2].
  destruct (csr_set_step s o) as [s1 r1], (tbl_spec live o) as [l1 q1]. cbn [fst snd] in H1, H2.
  destruct (IH s1 l1 H1) as [H3 H4].
  destruct (run csr_set_step s1 ops) as [s2 rs], (run tbl_spec l1 ops) as [l2 qs]. cbn [fst snd] in *.
  subst. auto.
Qed.

(** Instruction path: destination data buffers have the size of the register. *)
Lemma csr_db_history c ops : csr_wf c ->
  fold_left (csr_db_step (csr_size c)) ops c = fold_left (csr_step (cs_w c)) ops c.
Proof.
  intros H. unfold csr_size.
  assert (forall d o, csr_db_step (cs_w c / 8) d o = csr_step (cs_w c) d o) as E.
  { intros d o. unfold csr_db_step. destruct H as [[-> | ->] _]; reflexivity. }
  clear H. generalize c at 2 4. induction ops as [|o ops IH]; intros d; cbn [fold_left]; [reflexivity|].
  rewrite E. apply IH.
Qed.

Lemma csr_stored_bits aw c ops : csr_wf c -> cs_w c <= aw ->
  (forall i, 0 <= i < cs_w c ->
     Z.testbit (cs_value (fold_left (csr_step aw) ops c)) i =
     (if Z.testbit (cs_wmask c) i then bit_run i (Z.testbit (cs_value c) i) ops
      else Z.testbit (cs_value c) i)) /\
  inw (cs_w c) (cs_value (fold_left (csr_step aw) ops c)).
Proof.
  intros H Ha. split; [intros; apply csr_run_bit; assumption|].
  pose proof (csr_run_wf aw c ops H) as (_ & Hv & _).
  destruct (csr_run_masks aw c ops) as (E & _). rewrite E in Hv. exact Hv.
Qed.

Lemma tbl_rel_empty : tbl_rel csr_set_empty [].
Proof. unfold tbl_rel; cbn. ssplit; constructor. Qed.

Lemma tbl_names_agree ops i n c :
  let s := fst (run csr_set_step csr_set_empty ops) in
  find_index i (cm_index s) = Some c -> co_index c = i /\
  (find_name n (cm_name s) = Some c <-> co_name c = n).
Proof.
  intros s Hf. destruct (tbl_run_refines csr_set_empty [] ops tbl_rel_empty) as [(Hn & Hi & Dn & Di) _].
  fold s in Hn, Hi. rewrite Hi, find_index_map in Hf. rewrite Hn, find_name_map.
  apply find_some in Hf. destruct Hf as [Hin Hix]. unfold has_index in Hix.
  split; [lia|]. split.
  - intros F. apply find_some in F. unfold has_name in F. apply String.eqb_eq, F.
  - intros <-. clear -Hin Dn. set (live := fst (run tbl_spec [] ops)) in *. clearbody live.
    induction live as [|d live IH]; [destruct Hin|]. cbn [map] in Dn. apply NoDup_cons_iff in Dn.
    cbn [find]. unfold has_name at 1. destruct Hin as [->|Hin].
    + rewrite String.eqb_refl. reflexivity.
    + destruct (String.eqb_spec (co_name d) (co_name c)) as [E|E]; [|apply IH; tauto].
      exfalso. apply (proj1 Dn). rewrite E. apply in_map, Hin.
Qed.

Lemma tbl_no_ub ops : ~ In TUndefined (snd (run csr_set_step csr_set_empty ops)).
Proof.
  destruct (tbl_run_refines csr_set_empty [] ops tbl_rel_empty) as [_ E]. rewrite E. clear E.
  generalize (@nil csr_obj) as l. induction ops as [|o ops IH]; intros l; [intros []|].
  cbn [run]. destruct (tbl_spec l o) as [l1 r] eqn:Es. specialize (IH l1).
  destruct (run tbl_spec l1 ops) as [l2 rs]. cbn [snd] in *. intros [C|C]; [|auto].
  clear IH. subst r. destruct o as [[c|]|i|n|i]; cbn [tbl_spec] in Es;
    repeat match type of Es with context [if ?b then _ else _] => destruct b
           | context [match ?b with Some _ => _ | None => _ end] => destruct b end; congruence.
Qed.

Lemma tfound_inv (o : option csr_obj) c :
  match o with Some d => TFound d | None => TNotFound end = TFound c -> o = Some c.
Proof. destruct o; congruence. Qed.
Lemma tfound_iff (o : option csr_obj) c :
  match o with Some d => TFound d | None => TNotFound end = TFound c <-> o = Some c.
Proof. destruct o; split; congruence. Qed.
