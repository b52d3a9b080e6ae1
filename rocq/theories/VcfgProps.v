(** C35 and C43: vector configuration and fixed-point CSRs.
    [run (init vlenb vtype0) l = Some s]: the history [l] leads from reset to [s] without undefined
    behaviour; [vtype0] is the indeterminate initial vtype. *)
From Coq Require Import ZArith Bool List Lia.
From Verif Require Import Bits VcfgSpec VcfgModel VcfgProofs.
Import ListNotations.
Local Open Scope Z_scope.

(** C35.  vset{i}vl{i} other than the rs1 = rd = x0 form, from any state: vl, rd and vtype.  Missing:
    AVL >= 2^32, rs1 = rd = x0, unsupported vtype (refuted below). *)
Theorem vset_partial : forall s rd_x0 rs1_x0 avl t,
  0 <= vlenb s <= 8192 -> supported t -> (rd_x0 = true -> rs1_x0 = false) -> 0 <= avl < 2 ^ 32 ->
  exists s' rd, step s (Vset rd_x0 rs1_x0 avl t) = Some (s', rd) /\
    read s' Cvl = new_vl (vlenb s) rd_x0 rs1_x0 avl t (read s Cvl) /\
    rd = (if rd_x0 then None else Some (read s' Cvl)) /\ read s' Cvtype = t /\
    (forall c, In c [Cvlenb; Cvstart; Cvxsat; Cvxrm; Cvcsr] -> read s' c = read s c) /\
    vexc s' = vexc s.
Proof.
  intros s rd0 rs0 a t Hv Ht Hz Ha.
  destruct (vset_main s rd0 rs0 a t Hv Ht Hz Ha)
    as (s' & r & E & L & R & T & _ & M & _ & V & S & A & B & C & X).
  exists s', r. split; [exact E|].
  assert (0 <= vl s' <= 65536) as Q.
  { rewrite L. pose proof (VLMAX_bound (vlenb s) t Hv). unfold new_vl.
    destruct rs0; [destruct rd0; [discriminate (Hz eq_refl)|]|]; lia. }
  assert (new_vl (vlenb s) rd0 rs0 a t (read s Cvl) = new_vl (vlenb s) rd0 rs0 a t (vl s)) as ->.
  { unfold new_vl. destruct rs0; [destruct rd0; [discriminate (Hz eq_refl)|]|]; reflexivity. }
  split; [cbn [read]; rewrite wrap_id by (unfold inw; lia); exact L|].
  split; [cbn [read]; rewrite wrap_id by (unfold inw; lia); exact R|].
  split; [exact T|]. split; [|exact X].
  intros c Hc. destruct Hc as [<-|[<-|[<-|[<-|[<-|[]]]]]]; cbn [read]; rewrite ?S, ?A, ?B, ?C; reflexivity.
Qed.
Print Assumptions vset_partial.
(** SEW=32, LMUL=2, 16-byte registers: AVL 1000 gives VLMAX = 8. *)
Example vset_partial_case : supported 17 /\
  option_map (fun p => (read (fst p) Cvl, snd p)) (step (init 16 0) (Vset false false 1000 17)) = Some (8, Some 8).
Proof. split; [unfold supported; cbn; lia|reflexivity]. Qed.

(** C35.  The rs1 = rd = x0 form, after a history that set vtype: vl and vtype are kept or changed
    together; a vtype with another VLMAX is rejected.  Missing: vl should be kept (refuted below). *)
Theorem vset_keep_partial : forall vlenb vtype0 l t1 rd1 rs1 a1 s1 r1 s a t,
  0 <= vlenb <= 8192 -> supported t1 -> supported t -> (rd1 = true -> rs1 = false) -> 0 <= a1 < 2 ^ 32 ->
  run (init vlenb vtype0) l = Some s ->
  step s (Vset rd1 rs1 a1 t1) = Some (s1, r1) ->
  exists s2, step s1 (Vset true true a t) = Some (s2, None) /\
    (VLMAX vlenb t = VLMAX vlenb t1 ->
       read s2 Cvtype = t /\ vexc s2 = vexc s1 /\ (read s1 Cvl = VLMAX vlenb t1 -> read s2 Cvl = read s1 Cvl)) /\
    (VLMAX vlenb t <> VLMAX vlenb t1 ->
       read s2 Cvtype = t1 /\ read s2 Cvl = read s1 Cvl /\ vexc s2 = true).
Proof.
  intros b t0 l t1 rd1 rs1 a1 s1 r1 s a t Hb H1 Ht Hz Ha R E.
  pose proof (run_vlenb _ _ _ R) as V. cbn [init vlenb] in V.
  destruct (vset_main s rd1 rs1 a1 t1 ltac:(lia) H1 Hz Ha)
    as (s' & r & E' & L & _ & T & _ & M & D & V' & _ & _ & _ & _ & X).
  cbn [step] in E. rewrite E in E'. injection E' as <- <-.
  destruct (vset_zz s1 a t ltac:(lia) Ht D) as (s2 & E2 & _ & _ & _ & _ & _ & C).
  exists s2. split; [exact E2|]. rewrite V', M, V in C.
  pose proof (VLMAX_bound b t Hb).
  destruct (Z.eqb_spec (VLMAX b t) (VLMAX b t1)) as [Q|Q]; (split; intros Q'; try contradiction).
  - destruct C as (C1 & C2 & C3). split; [exact C2|]. split; [exact C3|]. cbn [read]. intros K.
    rewrite K, C1, wrap_id by (unfold inw; lia). exact Q.
  - destruct C as (C1 & C2 & _ & C3). cbn [read]. split; [congruence|]. split; [congruence|exact C3].
Qed.
Print Assumptions vset_keep_partial.
Example vset_keep_case :
  option_map (fun s => (read s Cvl, read s Cvtype, vexc s))
    (run (init 16 0) [Vset false true 0 17; Vset true true 0 8]) = Some (8, 8, false) /\
  option_map (fun s => (read s Cvl, read s Cvtype, vexc s))
    (run (init 16 0) [Vset false false 5 17; Vset true true 0 16]) = Some (5, 17, true).
Proof. split; reflexivity. Qed.

(** C35.  After every history vl is at most the VLMAX of the current vtype, and vlenb never changes. *)
Theorem vl_bounded : forall vlenb vtype0 l s, 0 <= vlenb <= 8192 ->
  run (init vlenb vtype0) l = Some s ->
  0 <= read s Cvl <= VLMAX vlenb (read s Cvtype) /\ read s Cvlenb = vlenb.
Proof. exact run_vl. Qed.
Print Assumptions vl_bounded.
Example vl_bounded_case :
  option_map (fun s => (read s Cvl, read s Cvtype))
    (run (init 16 99) [Vset false false 7 17; Write Cvl 100; Set_ Cvtype 3; Done; Vset true true 0 8]) = Some (8, 8).
Proof. reflexivity. Qed.

(** C35.  Only vset{i}vl{i} changes vl and vtype. *)
Theorem vl_only_vset : forall vlenb vtype0 l s o s' r, 0 <= vlenb <= 8192 ->
  run (init vlenb vtype0) l = Some s ->
  match o with Vset _ _ _ _ => False | _ => True end -> step s o = Some (s', r) ->
  forall c, In c [Cvl; Cvtype; Cvlenb] -> read s' c = read s c.
Proof. exact nonvset_cfg. Qed.
Print Assumptions vl_only_vset.
Example vl_only_vset_case :
  option_map (fun s => (read s Cvl, read s Cvtype, read s Cvlenb))
    (run (init 16 99) [Vset false false 7 17; Write Cvl 100; Clear Cvlenb 16; Write Cvtype 1]) = Some (7, 17, 16).
Proof. reflexivity. Qed.

(** The rs1 = rd = x0 form replaces a vl smaller than VLMAX by VLMAX. *)
Theorem vset_keep_refuted : exists l t s s' r, supported t /\
  run (init 16 0) l = Some s /\ step s (Vset true true 0 t) = Some (s', r) /\
  read s Cvtype = t /\ read s' Cvl <> read s Cvl.
Proof.
  exists [Vset false false 5 17], 17. eexists _, _, _. split; [unfold supported; cbn; lia|].
  split; [reflexivity|]. split; [reflexivity|]. split; [reflexivity|]. vm_compute; discriminate.
Qed.
Print Assumptions vset_keep_refuted.

(** On RV64, an AVL of 2^32 counts as 0. *)
Theorem vset_avl_refuted : exists avl t s' rd, supported t /\ 0 <= avl < 2 ^ 64 /\
  step (init 16 0) (Vset false false avl t) = Some (s', rd) /\ read s' Cvl <> new_vl 16 false false avl t 0.
Proof.
  exists (2 ^ 32), 17. eexists _, _. split; [unfold supported; cbn; lia|]. split; [lia|].
  split; [reflexivity|]. vm_compute; discriminate.
Qed.
Print Assumptions vset_avl_refuted.

(** Unsupported vtype values do not set vill: reserved SEW divides by zero, reserved LMUL is
    accepted and bits above 7 are ignored. *)
Theorem vset_vill_refuted :
  (forall s rd_x0 rs1_x0 avl t, 0 <= t < 256 -> 4 <= vsew t -> step s (Vset rd_x0 rs1_x0 avl t) = None) /\
  (exists t s' rd, ~ supported t /\ step (init 16 0) (Vset false false 1 t) = Some (s', rd) /\
     read s' Cvtype <> 2 ^ 31 /\ read s' Cvl <> 0).
Proof.
  split.
  - intros s rd0 rs0 a t B H. cbn [step]. unfold vsetvl.
    rewrite land255. unfold wrap. rewrite (Z.mod_small t (2 ^ 32)), (Z.mod_small t 256) by lia.
    rewrite svt_none by exact H. reflexivity.
  - exists 256. eexists _, _. split; [unfold supported; lia|]. split; [reflexivity|].
    split; vm_compute; discriminate.
Qed.
Print Assumptions vset_vill_refuted.

(** vset{i}vl{i} does not reset vstart. *)
Theorem vset_vstart_refuted : exists l s s' r, run (init 16 0) l = Some s /\
  step s (Vset false false 4 16) = Some (s', r) /\ read s' Cvstart <> 0.
Proof.
  exists [Write Cvstart 3]. eexists _, _, _. split; [reflexivity|]. split; [reflexivity|].
  vm_compute; discriminate.
Qed.
Print Assumptions vset_vstart_refuted.

(** C43.  After every history, vcsr is the concatenation of vxrm and vxsat. *)
Theorem vcsr_is_view : forall vlenb vtype0 l s, 0 <= vlenb <= 8192 ->
  run (init vlenb vtype0) l = Some s ->
  read s Cvcsr = 2 * read s Cvxrm + read s Cvxsat /\ 0 <= read s Cvxrm < 4 /\ 0 <= read s Cvxsat < 2.
Proof. exact run_vcsr. Qed.
Print Assumptions vcsr_is_view.
Example vcsr_is_view_case :
  option_map (fun s => (read s Cvcsr, read s Cvxrm, read s Cvxsat))
    (run (init 16 0) [Write Cvxrm 7; Saturate; Write Cvcsr 4; Saturate]) = Some (5, 2, 1).
Proof. reflexivity. Qed.

(** C43.  Histories of csrrw, saturations, vset and other instructions read what the specification
    says.  Missing: csrrs/csrrc (refuted below). *)
Theorem fixed_point_csrs_partial : forall vlenb vtype0 l s c, Forall plain l ->
  run (init vlenb vtype0) l = Some s -> In c [Cvxsat; Cvxrm; Cvcsr] -> 0 <= vlenb <= 8192 ->
  read s c = fx_read (fx_run l) c.
Proof. exact fx_reads. Qed.
Print Assumptions fixed_point_csrs_partial.
Example fixed_point_csrs_case :
  option_map (fun s => read s Cvcsr) (run (init 16 0) [Write Cvcsr 6; Saturate; Write Cvxrm 5; Vset false false 4 16])
  = Some 3.
Proof. reflexivity. Qed.

(** csrrs on vcsr forgets the rounding mode; csrrc on vxrm clears bits it should keep; csrrs does
    not accumulate. *)
Theorem fixed_point_csrs_refuted : exists l s, run (init 16 0) l = Some s /\
  read s Cvxrm <> fx_read (fx_run l) Cvxrm.
Proof. exists [Write Cvcsr 6; Set_ Cvcsr 1]. eexists. split; [reflexivity|]. vm_compute; discriminate. Qed.
Print Assumptions fixed_point_csrs_refuted.
