(** The decoders, each with its specification, and the pass over the bits for each. *)
From Coq Require Import ZArith List String Bool Lia.
From Verif Require Import Bits FmtSpec FmtModel DecSpec DecManual DecModel DecCheck DecProofs.
Import ListNotations.
Local Open Scope Z_scope.

(** Decoders whose manual and table have no exceptions at all. *)
Definition exact_decoders : list (decoder_spec * list row) :=
  [(s_ZFH32, d_ZFH32); (s_ZFH64, d_ZFH64); (s_ZVBB, d_ZVBB)].
(** Decoders that accept only what the manual gives them, but not all of it. *)
Definition sound_decoders : list (decoder_spec * list row) :=
  [(s_RiscV32G, d_RiscV32G); (s_RiscV64G, d_RiscV64G); (s_RiscV64C, d_RiscV64C); (s_RiscV32GZB, d_RiscV32GZB)].
(** Decoders that reject and accept too much, but never take a word for two instructions. *)
Definition loose_decoders : list (decoder_spec * list row) :=
  [(s_RiscV32C, d_RiscV32C); (s_RiscV64GZB, d_RiscV64GZB); (s_RiscV32GV, d_RiscV32GV); (s_RiscV64GV, d_RiscV64GV);
   (s_RiscV32GVZB, d_RiscV32GVZB); (s_RiscV64GVZB, d_RiscV64GVZB)].
Definition rvm23_decoders : list (decoder_spec * list row) :=
  [(s_RVM23Inst32, d_RVM23Inst32); (s_RVM23Inst16, d_RVM23Inst16)].
Definition decoders : list (decoder_spec * list row) :=
  (exact_decoders ++ sound_decoders ++ loose_decoders ++ rvm23_decoders)%list.

Lemma f_ZFH32 : decoder_facts true s_ZFH32 d_ZFH32.
Proof. apply (check_ok true order32). vm_cast_no_check (eq_refl true). Qed.
Lemma f_ZFH64 : decoder_facts true s_ZFH64 d_ZFH64.
Proof. apply (check_ok true order32). vm_cast_no_check (eq_refl true). Qed.
Lemma f_ZVBB : decoder_facts true s_ZVBB d_ZVBB.
Proof. apply (check_ok true order32). vm_cast_no_check (eq_refl true). Qed.
Lemma f_RiscV32G : decoder_facts true s_RiscV32G d_RiscV32G.
Proof. apply (check_ok true order32). vm_cast_no_check (eq_refl true). Qed.
Lemma f_RiscV64G : decoder_facts true s_RiscV64G d_RiscV64G.
Proof. apply (check_ok true order32). vm_cast_no_check (eq_refl true). Qed.
Lemma f_RiscV32C : decoder_facts true s_RiscV32C d_RiscV32C.
Proof. apply (check_ok true order16). vm_cast_no_check (eq_refl true). Qed.
Lemma f_RiscV64C : decoder_facts true s_RiscV64C d_RiscV64C.
Proof. apply (check_ok true order16). vm_cast_no_check (eq_refl true). Qed.
Lemma f_RiscV32GZB : decoder_facts true s_RiscV32GZB d_RiscV32GZB.
Proof. apply (check_ok true order32). vm_cast_no_check (eq_refl true). Qed.
Lemma f_RiscV64GZB : decoder_facts true s_RiscV64GZB d_RiscV64GZB.
Proof. apply (check_ok true order32). vm_cast_no_check (eq_refl true). Qed.
Lemma f_RiscV32GV : decoder_facts true s_RiscV32GV d_RiscV32GV.
Proof. apply (check_ok true order32). vm_cast_no_check (eq_refl true). Qed.
Lemma f_RiscV64GV : decoder_facts true s_RiscV64GV d_RiscV64GV.
Proof. apply (check_ok true order32). vm_cast_no_check (eq_refl true). Qed.
Lemma f_RiscV32GVZB : decoder_facts true s_RiscV32GVZB d_RiscV32GVZB.
Proof. apply (check_ok true order32). vm_cast_no_check (eq_refl true). Qed.
Lemma f_RiscV64GVZB : decoder_facts true s_RiscV64GVZB d_RiscV64GVZB.
Proof. apply (check_ok true order32). vm_cast_no_check (eq_refl true). Qed.
Lemma f_RVM23Inst32 : decoder_facts false s_RVM23Inst32 d_RVM23Inst32.
Proof. apply (check_ok false order32). vm_cast_no_check (eq_refl true). Qed.
Lemma f_RVM23Inst16 : decoder_facts false s_RVM23Inst16 d_RVM23Inst16.
Proof. apply (check_ok false order16). vm_cast_no_check (eq_refl true). Qed.

Ltac each H := repeat (destruct H as [H | H]; [injection H as <- <- |]); try destruct H.
Lemma strict_facts : forall D rows, In (D, rows) (exact_decoders ++ sound_decoders ++ loose_decoders) -> decoder_facts true D rows.
Proof.
  intros D rows H. cbn [app exact_decoders sound_decoders loose_decoders] in H. each H.
  - exact f_ZFH32. - exact f_ZFH64. - exact f_ZVBB. - exact f_RiscV32G. - exact f_RiscV64G. - exact f_RiscV64C. - exact f_RiscV32GZB.
  - exact f_RiscV32C. - exact f_RiscV64GZB. - exact f_RiscV32GV. - exact f_RiscV64GV. - exact f_RiscV32GVZB. - exact f_RiscV64GVZB.
Qed.
Lemma rvm23_facts : forall D rows, In (D, rows) rvm23_decoders -> decoder_facts false D rows.
Proof. intros D rows H. cbn [rvm23_decoders] in H. each H. - exact f_RVM23Inst32. - exact f_RVM23Inst16. Qed.
Lemma all_facts : forall D rows, In (D, rows) decoders ->
  complete_but D (decodes rows) /\ sound_but D (decodes rows) /\ consistent D.
Proof.
  intros D rows H. unfold decoders in H. rewrite !in_app_iff in H.
  assert (C : In (D, rows) (exact_decoders ++ sound_decoders ++ loose_decoders) \/ In (D, rows) rvm23_decoders)
    by (rewrite !in_app_iff; tauto).
  destruct C as [C | C]; [exact (proj2 (strict_facts D rows C)) | exact (proj2 (rvm23_facts D rows C))].
Qed.

(** Deciding the specification on one word. *)
Definition holdsb (w : Z) (c : cond) : bool :=
  match c with
  | Is rs v => fields w rs =? v
  | Isnt rs v => negb (fields w rs =? v)
  | Atleast rs v => v <=? fields w rs
  | Below rs v => fields w rs <? v
  | Differ r s => negb (bits w r =? bits w s) end.
Lemma holdsb_ok w c : holdsb w c = true <-> holds w c.
Proof. destruct c; cbn; rewrite ?negb_true_iff, ?Z.eqb_eq, ?Z.eqb_neq, ?Z.leb_le, ?Z.ltb_lt; tauto. Qed.
Lemma conds_ok w cs : forallb (holdsb w) cs = true <-> Forall (holds w) cs.
Proof.
  rewrite forallb_forall, Forall_forall. split; intros H c Hc; apply holdsb_ok, H, Hc.
Qed.
Definition listedb (rgs : list region) (n : string) (w : Z) : bool :=
  existsb (fun g => mem n (rg_names g) && forallb (holdsb w) (rg_conds g)) rgs.
Lemma listedb_ok rgs n w : listedb rgs n w = true <-> listed rgs n w.
Proof.
  unfold listedb, listed. rewrite existsb_exists. split.
  - intros (g & Hg & E). apply andb_true_iff in E. rewrite mem_iff, conds_ok in E. exists g. tauto.
  - intros (g & Hg & M & F). exists g. rewrite andb_true_iff, mem_iff, conds_ok. tauto.
Qed.

(** The word [w] is instruction [m] of the manual and listed as missing. *)
Definition missing_at (D : decoder_spec) (m : string) (w : Z) : bool :=
  (0 <=? w) && (w <? 2 ^ ds_width D) && listedb (ds_missing D) m w &&
  existsb (fun e => String.eqb (mnemonic e) m && forallb (holdsb w) (encoding e)) (ds_manual D).
Lemma missing_at_ok D rows m w : complete_but D (decodes rows) -> missing_at D m w = true ->
  exists e, mnemonic e = m /\ 0 <= w < 2 ^ ds_width D /\ In e (ds_manual D) /\ means e w /\ forall o, In o (opcodes e) -> ~ decodes rows w o.
Proof.
  intros C H. unfold missing_at in H. rewrite !andb_true_iff, listedb_ok, existsb_exists in H.
  destruct H as (((H0 & H1) & L) & e & He & E). apply andb_true_iff in E. rewrite String.eqb_eq, conds_ok in E. destruct E as [<- M].
  apply Z.leb_le in H0. apply Z.ltb_lt in H1. exists e. repeat split; try assumption.
  intros o Ho Hd. apply (proj1 (C w e (conj H0 H1) He M) (ex_intro _ o (conj Ho Hd))). exact L.
Qed.
(** The word is accepted as [o] and listed as extra. *)
Definition extra_at (D : decoder_spec) (rows : list row) (o : string) (w : Z) : bool :=
  (0 <=? w) && (w <? 2 ^ ds_width D) && listedb (ds_extra D) o w &&
  existsb (fun r => String.eqb (r_name r) o && applies r w) rows.
Lemma extra_at_ok D rows o w : sound_but D (decodes rows) -> extra_at D rows o w = true ->
  0 <= w < 2 ^ ds_width D /\ decodes rows w o /\ ~ covered D w o.
Proof.
  intros S H. unfold extra_at in H. rewrite !andb_true_iff, listedb_ok, existsb_exists in H.
  destruct H as (((H0 & H1) & L) & r & Hr & E). apply andb_true_iff in E. rewrite String.eqb_eq in E. destruct E as [<- A].
  apply Z.leb_le in H0. apply Z.ltb_lt in H1.
  assert (Dc : decodes rows w (r_name r)) by (exists r; repeat split; assumption).
  split; [lia |]. split; [exact Dc |]. intro C. apply (proj1 (S w _ (conj H0 H1) Dc)) in C. exact (C L).
Qed.
