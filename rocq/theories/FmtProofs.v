(** Proofs about instruction formats and assembler operands. *)
From Coq Require Import ZArith List String Bool Lia.
From Verif Require Import Bits FmtSpec FmtModel FmtLink.
Import ListNotations.
Local Open Scope string_scope.
Local Open Scope Z_scope.

Notation len l := (Z.of_nat (List.length l)).

Fixpoint src_at (l : list src) (i : Z) : option src :=
  match l with
  | [] => None
  | s :: r => if i =? len r then Some s else src_at r i
  end.

Definition is_bit (k : Z) (s : src) : bool :=
  match s with SB j => j =? k | SC _ => false end.

(** No instruction bit used twice, none negative. *)
Fixpoint nodup_src (l : list src) : bool :=
  match l with
  | [] => true
  | SB k :: r => (0 <=? k) && negb (existsb (is_bit k) r) && nodup_src r
  | SC _ :: r => nodup_src r
  end.

Lemma src_at_range l i s : src_at l i = Some s -> 0 <= i < len l.
Proof.
  induction l as [|a r IH]; cbn [src_at List.length]; [discriminate|].
  destruct (Z.eqb_spec i (len r)); [lia|]. intros H; apply IH in H; lia.
Qed.

Lemma src_at_total l i : 0 <= i < len l -> exists s, src_at l i = Some s.
Proof.
  induction l as [|a r IH]; cbn [src_at List.length]; [lia|].
  intros H. destruct (Z.eqb_spec i (len r)); [eauto|]. apply IH; lia.
Qed.

Lemma src_at_in l i s : src_at l i = Some s -> In s l.
Proof.
  induction l as [|a r IH]; cbn [src_at]; [discriminate|].
  destruct (Z.eqb_spec i (len r)); [intros [= ->]; left; reflexivity|right; auto].
Qed.

Lemma existsb_is_bit k l : existsb (is_bit k) l = true <-> In (SB k) l.
Proof.
  rewrite existsb_exists. split.
  - intros [[j|b] [H1 H2]]; cbn [is_bit] in H2; [|discriminate].
    apply Z.eqb_eq in H2; subst; assumption.
  - intros H; exists (SB k); split; [assumption|cbn; apply Z.eqb_refl].
Qed.

Lemma src_at_SB l i j k : nodup_src l = true ->
  src_at l i = Some (SB k) -> src_at l j = Some (SB k) -> i = j.
Proof.
  revert i j; induction l as [|a r IH]; cbn [src_at nodup_src]; [discriminate|].
  intros i j N Hi Hj.
  destruct a as [k'|b].
  - apply andb_true_iff in N as [N N2]. apply andb_true_iff in N as [_ N1].
    destruct (Z.eqb_spec i (len r)), (Z.eqb_spec j (len r)); subst; try reflexivity.
    + injection Hi as ->. apply src_at_in, existsb_is_bit in Hj. rewrite Hj in N1; discriminate.
    + injection Hj as ->. apply src_at_in, existsb_is_bit in Hi. rewrite Hi in N1; discriminate.
    + apply (IH i j); assumption.
  - destruct (Z.eqb_spec i (len r)); [discriminate|].
    destruct (Z.eqb_spec j (len r)); [discriminate|]. apply (IH i j); assumption.
Qed.

Lemma gather_range l w : 0 <= gather l w < 2 ^ len l.
Proof.
  induction l as [|s r IH]; cbn [gather List.length]; [cbn; lia|].
  rewrite Nat2Z.inj_succ, Z.pow_succ_r by lia.
  pose proof (pow2_pos (len r) ltac:(lia)).
  destruct (src_bit w s); cbn [Z.b2z]; lia.
Qed.

Lemma gather_bit l w i :
  Z.testbit (gather l w) i
  = match src_at l i with Some s => src_bit w s | None => false end.
Proof.
  destruct (Z.ltb_spec i 0) as [Hi|Hi].
  { rewrite Z.testbit_neg_r by lia. destruct (src_at l i) eqn:E; [|reflexivity].
    apply src_at_range in E; lia. }
  revert i Hi; induction l as [|s r IH]; intros i Hi; cbn [gather src_at];
    [apply Z.testbit_0_l|].
  pose proof (gather_range r w) as G.
  destruct (Z.eqb_spec i (len r)) as [->|N].
  - apply Z.b2z_inj. rewrite Z.testbit_spec' by lia.
    rewrite Z.div_add_l by (pose proof (pow2_pos (len r) ltac:(lia)); lia).
    rewrite (Z.div_small (gather r w)) by assumption. rewrite Z.add_0_r.
    destruct (src_bit w s); reflexivity.
  - rewrite <- IH by lia.
    destruct (Z.ltb_spec i (len r)).
    + rewrite <- (Z.mod_pow2_bits_low _ (len r)) by lia.
      rewrite Z.add_comm, Z_mod_plus_full. rewrite Z.mod_small by assumption. reflexivity.
    + rewrite (inw_testbit_high (len r) (gather r w)) by (unfold inw; auto; lia).
      apply (inw_testbit_high (Z.succ (len r))); [|lia].
      pose proof (gather_range (s :: r) w) as G2. cbn [gather List.length] in G2.
      rewrite Nat2Z.inj_succ in G2. exact G2.
Qed.

Lemma put_bit_spec w k b j : 0 <= k -> 0 <= j ->
  Z.testbit (put_bit w k b) j = if j =? k then b else Z.testbit w j.
Proof.
  intros. unfold put_bit. destruct b.
  - rewrite Z.setbit_eqb by lia. rewrite (Z.eqb_sym k j).
    destruct (j =? k); reflexivity.
  - rewrite Z.clearbit_eqb by lia. rewrite (Z.eqb_sym k j).
    destruct (j =? k); [apply andb_false_r|rewrite andb_true_r; reflexivity].
Qed.

Lemma nodup_cons_bits s r : nodup_src (s :: r) = true -> nodup_src r = true.
Proof. destruct s; cbn; [rewrite !andb_true_iff; tauto|auto]. Qed.

Lemma scatter_miss l v w k : nodup_src l = true -> 0 <= k -> ~ In (SB k) l ->
  Z.testbit (scatter l v w) k = Z.testbit w k.
Proof.
  induction l as [|s r IH]; intros N Hk Hn; cbn [scatter]; [reflexivity|].
  pose proof (nodup_cons_bits _ _ N) as N'.
  destruct s as [j|b].
  - rewrite put_bit_spec; [|cbn in N; rewrite !andb_true_iff in N; lia|assumption].
    destruct (Z.eqb_spec k j) as [->|]; [exfalso; apply Hn; left; reflexivity|].
    apply IH; auto. intros H; apply Hn; right; exact H.
  - apply IH; auto. intros H; apply Hn; right; exact H.
Qed.

Lemma scatter_hit l v w i k : nodup_src l = true ->
  src_at l i = Some (SB k) -> Z.testbit (scatter l v w) k = Z.testbit v i.
Proof.
  induction l as [|s r IH]; intros N Hi; cbn [scatter src_at] in *; [discriminate|].
  pose proof (nodup_cons_bits _ _ N) as N'.
  destruct s as [j|b].
  - cbn [nodup_src] in N. rewrite !andb_true_iff in N. destruct N as [[N1 N2] _].
    destruct (Z.eqb_spec i (len r)) as [->|Ni].
    + injection Hi as ->. rewrite put_bit_spec by lia. rewrite Z.eqb_refl. reflexivity.
    + pose proof (src_at_in _ _ _ Hi) as HI.
      assert (k <> j).
      { intros ->. apply existsb_is_bit in HI. rewrite HI in N2; discriminate. }
      assert (0 <= k).
      { clear - HI N'. induction r as [|a t IH]; [destruct HI|].
        destruct HI as [->|HI]; [cbn in N'; rewrite !andb_true_iff in N'; lia|].
        apply IH; [|exact HI]. eapply nodup_cons_bits; exact N'. }
      rewrite put_bit_spec by lia. destruct (Z.eqb_spec k j); [lia|]. apply IH; assumption.
  - destruct (Z.eqb_spec i (len r)); [discriminate|]. apply IH; assumption.
Qed.

(** Reading back what was written. *)
Lemma gather_scatter_bit l v w i : nodup_src l = true -> 0 <= i < len l ->
  (forall j b, src_at l j = Some (SC b) -> Z.testbit v j = b) ->
  Z.testbit (gather l (scatter l v w)) i = Z.testbit v i.
Proof.
  intros N Hi Hc. rewrite gather_bit.
  destruct (src_at_total l i Hi) as [s Hs]. rewrite Hs.
  destruct s as [k|b]; cbn [src_bit].
  - apply scatter_hit; assumption.
  - symmetry; apply Hc; assumption.
Qed.

(** * Fields and overlays of every format *)

(** Values an operand of declared signedness, width and constant bits can hold. *)
Definition holds (fm : format) (name : string) (v : Z) : Prop :=
  match layout fm name with
  | Some (s, width, l) =>
    (if s then - 2 ^ (width - 1) <= v < 2 ^ (width - 1) else 0 <= v < 2 ^ width) /\
    (forall i b, src_at l i = Some (SC b) -> Z.testbit v i = b)
  | None => False
  end.

Definition wf_layout (fm : format) (name : string) : bool :=
  match layout fm name with
  | Some (s, width, l) =>
    (width =? len l) && (1 <=? width) && nodup_src l &&
    forallb (fun x => match x with SB k => k <? fm_width fm | SC _ => true end) l
  | None => false
  end.

Lemma all_formats_wf :
  forallb (fun fm => forallb (wf_layout fm) (operands_of fm)) all_formats = true.
Proof. vm_compute. reflexivity. Qed.

Lemma wf_of fm name : In fm all_formats -> In name (operands_of fm) -> wf_layout fm name = true.
Proof.
  intros Hf Hn. pose proof all_formats_wf as A.
  rewrite forallb_forall in A. specialize (A fm Hf).
  rewrite forallb_forall in A. exact (A name Hn).
Qed.

Lemma wf_layout_inv fm name : wf_layout fm name = true ->
  exists s width l, layout fm name = Some (s, width, l) /\ width = len l /\ 1 <= width /\
    nodup_src l = true /\ forall k, In (SB k) l -> k < fm_width fm.
Proof.
  unfold wf_layout. destruct (layout fm name) as [[[s width] l]|]; [|discriminate].
  rewrite !andb_true_iff, forallb_forall. intros [[[H1 H2] H3] H4].
  exists s, width, l. split; [reflexivity|]. split; [lia|]. split; [lia|].
  split; [exact H3|]. intros k Hk. specialize (H4 _ Hk). cbn in H4. lia.
Qed.

Lemma roundtrip_lemma fm name v w : In fm all_formats -> In name (operands_of fm) ->
  holds fm name v -> extract fm name (insert fm name v w) = v.
Proof.
  intros Hf Hn Hh. pose proof (wf_of _ _ Hf Hn) as W.
  destruct (wf_layout_inv _ _ W) as (s & width & l & E & Ew & Hw & N & _).
  unfold holds in Hh. unfold extract, insert. rewrite E in *. destruct Hh as [Hr Hc].
  assert (wrap width (gather l (scatter l v w)) = wrap width v) as G.
  { apply wrap_eq_bits; [lia|]. intros i Hi. apply gather_scatter_bit; auto; lia. }
  destruct s.
  - transitivity (sgn width v); [|apply sgn_id; lia].
    rewrite <- (sgn_wrap width (gather _ _)) by lia. rewrite G. apply sgn_wrap; lia.
  - transitivity (wrap width (gather l (scatter l v w))).
    2: { rewrite G. apply wrap_id. exact Hr. }
    symmetry. apply wrap_id. unfold inw. rewrite Ew. apply gather_range.
Qed.

(** Instruction bit [k] belongs to the named operand. *)
Definition uses (fm : format) (name : string) (k : Z) : Prop :=
  match layout fm name with Some (_, _, l) => In (SB k) l | None => False end.

Lemma frame_lemma fm name v w k : In fm all_formats -> In name (operands_of fm) ->
  0 <= k -> ~ uses fm name k -> Z.testbit (insert fm name v w) k = Z.testbit w k.
Proof.
  intros Hf Hn Hk Hu. pose proof (wf_of _ _ Hf Hn) as W.
  destruct (wf_layout_inv _ _ W) as (s & width & l & E & Ew & Hw & N & _).
  unfold uses in Hu. unfold insert. rewrite E in *. apply scatter_miss; assumption.
Qed.

Lemma gather_ext l w w' : (forall k, In (SB k) l -> Z.testbit w k = Z.testbit w' k) ->
  gather l w = gather l w'.
Proof.
  induction l as [|s r IH]; intros H; cbn [gather]; [reflexivity|].
  f_equal; [|apply IH; intros; apply H; right; assumption].
  f_equal. destruct s as [k|b]; cbn [src_bit]; [|reflexivity].
  rewrite (H k) by (left; reflexivity). reflexivity.
Qed.

Lemma nodup_nonneg l k : nodup_src l = true -> In (SB k) l -> 0 <= k.
Proof.
  induction l as [|a t IH]; intros N; [intros []|].
  intros [->|HI]; [cbn in N; rewrite !andb_true_iff in N; lia|].
  apply IH; [|exact HI]. eapply nodup_cons_bits; exact N.
Qed.

Lemma other_lemma fm name fm' name' v w :
  In fm all_formats -> In name (operands_of fm) ->
  In fm' all_formats -> In name' (operands_of fm') ->
  (forall k, uses fm name k -> ~ uses fm' name' k) ->
  extract fm' name' (insert fm name v w) = extract fm' name' w.
Proof.
  intros Hf Hn Hf' Hn' D.
  destruct (wf_layout_inv _ _ (wf_of _ _ Hf' Hn')) as (s & width & l & E & Ew & Hw & N & _).
  unfold extract. rewrite E.
  assert (gather l (insert fm name v w) = gather l w) as ->; [|reflexivity].
  apply gather_ext. intros k Hk. apply frame_lemma; auto.
  - apply (nodup_nonneg l); assumption.
  - intros U. apply (D k U). unfold uses. rewrite E. exact Hk.
Qed.

Lemma width_lemma fm name v w : In fm all_formats -> In name (operands_of fm) ->
  inw (fm_width fm) w -> 0 <= fm_width fm -> inw (fm_width fm) (insert fm name v w).
Proof.
  intros Hf Hn Hw H0.
  destruct (wf_layout_inv _ _ (wf_of _ _ Hf Hn)) as (s & width & l & E & Ew & _ & N & HB).
  assert (0 <= insert fm name v w) as Hp.
  { unfold insert; rewrite E. clear - Hw. 
    assert (0 <= w) by apply Hw. clear Hw.
    induction l as [|a r IH]; cbn [scatter]; [assumption|].
    destruct a as [k|b]; [|exact IH]. unfold put_bit. destruct (Z.testbit v _).
    - unfold Z.setbit. apply Z.lor_nonneg; split; [exact IH|apply Z.shiftl_nonneg; lia].
    - unfold Z.clearbit. apply Z.ldiff_nonneg; left; exact IH. }
  apply inw_of_testbit; [lia|exact Hp|].
  intros i Hi. rewrite frame_lemma; auto; [|lia|].
  - apply (inw_testbit_high (fm_width fm)); [exact Hw|lia].
  - unfold uses. rewrite E. intros HI. apply HB in HI. lia.
Qed.

(** * The manual's operands *)

Definition fixed_at (o : operand) (i : Z) : option bool :=
  match find (fun p => fst p =? i) (o_fixed o) with Some p => Some (snd p) | None => None end.
Definition seg_at (o : operand) (i : Z) : option Z :=
  match find (fun s => (sg_at s <=? i) && (i <=? sg_at s + (sg_hi s - sg_lo s))) (o_segs o) with
  | Some s => Some (sg_lo s + (i - sg_at s))
  | None => None
  end.
Definition bit_of (o : operand) (i : Z) : option src :=
  match fixed_at o i, seg_at o i with
  | Some b, None => Some (SC b)
  | None, Some k => Some (SB k)
  | _, _ => None
  end.

Definition src_eqb (a b : src) : bool :=
  match a, b with SB i, SB j => i =? j | SC b, SC c => Bool.eqb b c | _, _ => false end.
Lemma src_eqb_eq a b : src_eqb a b = true -> a = b.
Proof.
  destruct a as [i|b1], b as [j|b2]; cbn; try discriminate.
  - intros H; apply Z.eqb_eq in H; congruence.
  - intros H; apply Bool.eqb_prop in H; congruence.
Qed.
Definition osrc_eqb (a b : option src) : bool :=
  match a, b with Some x, Some y => src_eqb x y | _, _ => false end.

(** The model's layout of a field is the one the manual draws ([sg]: signedness the
    field is declared with). *)
Definition agrees (o : operand) (fm : format) (name : string) : bool :=
  match layout fm name with
  | Some (s, width, l) =>
    (width =? o_width o) && (len l =? o_width o) && (1 <=? width) && nodup_src l &&
    Bool.eqb s (o_signed o) &&
    forallb (fun i => osrc_eqb (src_at l i) (bit_of o i)) (zrange (o_width o)) &&
    forallb (fun p => (0 <=? fst p) && (fst p <? o_width o) &&
                      osrc_eqb (src_at l (fst p)) (Some (SC (snd p)))) (o_fixed o) &&
    forallb (fun s => forallb (fun j => (0 <=? sg_at s + j) && (sg_at s + j <? o_width o) &&
                        osrc_eqb (src_at l (sg_at s + j)) (Some (SB (sg_lo s + j))))
                      (zrange (sg_hi s - sg_lo s + 1))) (o_segs o)
  | None => false
  end.

Lemma osrc_eqb_eq a b : osrc_eqb a b = true -> a = b.
Proof.
  destruct a, b; cbn; try discriminate. intros H; apply src_eqb_eq in H; congruence.
Qed.

Record agree_facts (o : operand) (fm : format) (name : string) (l : list src) : Prop := {
  af_layout : layout fm name = Some (o_signed o, o_width o, l);
  af_len : len l = o_width o;
  af_pos : 1 <= o_width o;
  af_nodup : nodup_src l = true;
  af_fixed : forall i b, In (i, b) (o_fixed o) ->
    0 <= i < o_width o /\ src_at l i = Some (SC b);
  af_seg : forall s j, In s (o_segs o) -> 0 <= j <= sg_hi s - sg_lo s ->
    0 <= sg_at s + j < o_width o /\ src_at l (sg_at s + j) = Some (SB (sg_lo s + j));
  af_cover : forall i, 0 <= i < o_width o ->
    (exists b, src_at l i = Some (SC b) /\ In (i, b) (o_fixed o)) \/
    (exists s j, In s (o_segs o) /\ 0 <= j <= sg_hi s - sg_lo s /\ i = sg_at s + j /\
       src_at l i = Some (SB (sg_lo s + j))) }.

Lemma agrees_facts o fm name : agrees o fm name = true ->
  exists l, agree_facts o fm name l.
Proof.
  unfold agrees. destruct (layout fm name) as [[[s width] l]|] eqn:E; [|discriminate].
  rewrite !andb_true_iff. intros [[[[[[[H1 H2] H3] H4] H5] H6] H7] H8].
  apply Z.eqb_eq in H1. subst width. apply Z.eqb_eq in H2.
  apply Bool.eqb_prop in H5. subst s.
  exists l. constructor; auto.
  - lia.
  - intros i b Hi. rewrite forallb_forall in H7. specialize (H7 _ Hi). cbn in H7.
    rewrite !andb_true_iff in H7. destruct H7 as [H7 H9].
    split; [lia|apply osrc_eqb_eq; exact H9].
  - intros s j Hs Hj. rewrite forallb_forall in H8. specialize (H8 _ Hs).
    rewrite forallb_forall in H8.
    assert (In j (zrange (sg_hi s - sg_lo s + 1))) as Hz by (apply zrange_in; lia).
    specialize (H8 j Hz).
    rewrite !andb_true_iff in H8. destruct H8 as [H8 H9].
    split; [lia|apply osrc_eqb_eq; exact H9].
  - intros i Hi. rewrite forallb_forall in H6.
    specialize (H6 i (proj2 (zrange_in _ _) Hi)). apply osrc_eqb_eq in H6.
    unfold bit_of in H6. destruct (fixed_at o i) as [b|] eqn:Ef, (seg_at o i) as [k|] eqn:Es;
      try (destruct (src_at_total l i ltac:(lia)) as [x Hx]; congruence).
    + left. exists b. split; [exact H6|]. unfold fixed_at in Ef.
      destruct (find _ (o_fixed o)) as [[j c]|] eqn:F; [|discriminate].
      apply find_some in F as [F1 F2]. cbn in F2, Ef. apply Z.eqb_eq in F2.
      injection Ef as <-. subst j. exact F1.
    + right. unfold seg_at in Es. destruct (find _ (o_segs o)) as [s|] eqn:F; [|discriminate].
      apply find_some in F as [F1 F2]. injection Es as <-. apply andb_true_iff in F2.
      exists s, (i - sg_at s). split; [exact F1|]. split; [lia|]. split; [lia|exact H6].
Qed.

Lemma extract_encodes o fm name w : agrees o fm name = true ->
  encodes o w (extract fm name w).
Proof.
  intros A. destruct (agrees_facts _ _ _ A) as [l F]. destruct F.
  unfold extract. rewrite af_layout0.
  assert (forall i, 0 <= i < o_width o ->
    Z.testbit (if o_signed o then sgn (o_width o) (gather l w) else gather l w) i
    = match src_at l i with Some s => src_bit w s | None => false end) as B.
  { intros i Hi. destruct (o_signed o).
    - rewrite sgn_testbit by lia. destruct (Z.ltb_spec i (o_width o)); [|lia]. apply gather_bit.
    - apply gather_bit. }
  split; [split|].
  - destruct (o_signed o).
    + apply sgn_range; lia.
    + pose proof (gather_range l w). rewrite <- af_len0. assumption.
  - intros i b Hi. destruct (af_fixed0 i b Hi) as [R S]. rewrite B by assumption.
    rewrite S. reflexivity.
  - intros s Hs j Hj. destruct (af_seg0 s j Hs Hj) as [R S]. rewrite B by assumption.
    rewrite S. reflexivity.
Qed.

Lemma encodes_unique_lemma o fm name w v v' : agrees o fm name = true ->
  encodes o w v -> encodes o w v' -> v = v'.
Proof.
  intros A [[R1 F1] S1] [[R2 F2] S2]. destruct (agrees_facts _ _ _ A) as [l F]. destruct F.
  assert (wrap (o_width o) v = wrap (o_width o) v') as E.
  { apply wrap_eq_bits; [lia|]. intros i Hi.
    destruct (af_cover0 i Hi) as [(b & _ & Hb)|(s & j & Hs & Hj & -> & _)].
    - rewrite (F1 _ _ Hb), (F2 _ _ Hb). reflexivity.
    - rewrite (S1 s Hs j Hj), (S2 s Hs j Hj). reflexivity. }
  destruct (o_signed o).
  - rewrite <- (sgn_id (o_width o) v), <- (sgn_id (o_width o) v') by lia.
    rewrite <- (sgn_wrap _ v), <- (sgn_wrap _ v') by lia. rewrite E. reflexivity.
  - rewrite <- (wrap_id (o_width o) v), <- (wrap_id (o_width o) v') by assumption. exact E.
Qed.

Lemma insert_encodes o fm name v w : agrees o fm name = true -> legal o v ->
  encodes o (insert fm name v w) v /\
  forall k, 0 <= k -> ~ carries o k -> Z.testbit (insert fm name v w) k = Z.testbit w k.
Proof.
  intros A L. destruct (agrees_facts _ _ _ A) as [l F]. destruct F.
  unfold insert. rewrite af_layout0. split; [split; [exact L|]|].
  - intros s Hs j Hj. destruct (af_seg0 s j Hs Hj) as [R S]. symmetry.
    apply scatter_hit; assumption.
  - intros k Hk NC. apply scatter_miss; auto. intros HI.
    assert (exists i, src_at l i = Some (SB k)) as [i Hi].
    { clear - HI. induction l as [|a r IH]; [destruct HI|]. cbn [src_at].
      destruct HI as [->|HI]; [exists (len r); rewrite Z.eqb_refl; reflexivity|].
      destruct (IH HI) as [i Hi]. exists i. pose proof (src_at_range _ _ _ Hi).
      destruct (Z.eqb_spec i (len r)); [lia|exact Hi]. }
    pose proof (src_at_range _ _ _ Hi) as R.
    destruct (af_cover0 i ltac:(lia)) as [(b & Hb & _)|(s & j & Hs & Hj & -> & HS)];
      [congruence|].
    apply NC. exists s. split; [exact Hs|]. rewrite HS in Hi. injection Hi as <-. lia.
Qed.

(** * Statements about all formats *)

Lemma extract_holds fm name w : wf_layout fm name = true -> holds fm name (extract fm name w).
Proof.
  intros W. destruct (wf_layout_inv _ _ W) as (s & width & l & E & Ew & Hw & N & _).
  unfold holds, extract. rewrite E. split.
  - destruct s; [apply sgn_range; lia|]. rewrite Ew. apply gather_range.
  - intros i b Hi. pose proof (src_at_range _ _ _ Hi).
    destruct s; [rewrite sgn_testbit by lia; destruct (Z.ltb_spec i width); [|lia]|];
      rewrite gather_bit, Hi; reflexivity.
Qed.

Lemma image_roundtrip fm name w w0 : In fm all_formats -> In name (operands_of fm) ->
  extract fm name (insert fm name (extract fm name w0) w) = extract fm name w0.
Proof.
  intros Hf Hn. apply roundtrip_lemma; auto. apply extract_holds, wf_of; assumption.
Qed.

Lemma src_at_In l s : In s l -> exists i, src_at l i = Some s.
Proof.
  induction l as [|a r IH]; [intros []|]. cbn [src_at].
  intros [-> | HI]; [exists (len r); rewrite Z.eqb_refl; reflexivity|].
  destruct (IH HI) as [i Hi]. exists i. pose proof (src_at_range _ _ _ Hi).
  destruct (Z.eqb_spec i (len r)); [lia|exact Hi].
Qed.

Lemma uses_depends fm name k : wf_layout fm name = true -> uses fm name k ->
  exists w, extract fm name (Z.lxor w (2 ^ k)) <> extract fm name w.
Proof.
  intros W U. destruct (wf_layout_inv _ _ W) as (s & width & l & E & Ew & Hw & N & _).
  unfold uses in U. rewrite E in U. pose proof (nodup_nonneg _ _ N U) as Hk.
  destruct (src_at_In _ _ U) as [i Hi]. pose proof (src_at_range _ _ _ Hi) as R.
  exists 0. intros X. apply (f_equal (fun z => Z.testbit z i)) in X.
  unfold extract in X. rewrite E in X.
  assert (forall w, Z.testbit (if s then sgn width (gather l w) else gather l w) i
                    = Z.testbit w k) as B.
  { intros w. destruct s; [rewrite sgn_testbit by lia; destruct (Z.ltb_spec i width); [|lia]|];
      rewrite gather_bit, Hi; reflexivity. }
  rewrite !B, Z.lxor_0_l, Z.testbit_0_l, Z.pow2_bits_true in X by lia. discriminate.
Qed.

Lemma semantic_frame fm name v w k : In fm all_formats -> In name (operands_of fm) ->
  0 <= k -> (forall x, extract fm name (Z.lxor x (2 ^ k)) = extract fm name x) ->
  Z.testbit (insert fm name v w) k = Z.testbit w k.
Proof.
  intros Hf Hn Hk Hd. apply frame_lemma; auto. intros U.
  destruct (uses_depends fm name k (wf_of _ _ Hf Hn) U) as [x Hx]. exact (Hx (Hd x)).
Qed.

Definition bits_of (fm : format) (name : string) : list src :=
  match layout fm name with Some (_, _, l) => l | None => [] end.

Definition fields_disjoint (fm : format) : bool :=
  forallb (fun a => forallb (fun b => String.eqb a b ||
      forallb (fun x => match x with SB k => negb (existsb (is_bit k) (bits_of fm b))
                                   | SC _ => true end) (bits_of fm a))
    (map fd_name (fm_fields fm))) (map fd_name (fm_fields fm)).

Lemma all_fields_disjoint : forallb fields_disjoint all_formats = true.
Proof. vm_compute. reflexivity. Qed.

Lemma fields_frame fm a b v w : In fm all_formats ->
  In a (map fd_name (fm_fields fm)) -> In b (map fd_name (fm_fields fm)) -> a <> b ->
  extract fm b (insert fm a v w) = extract fm b w.
Proof.
  intros Hf Ha Hb Hab. apply other_lemma; auto;
    try (unfold operands_of; apply in_or_app; left; assumption).
  intros k Ua Ub. pose proof all_fields_disjoint as D.
  rewrite forallb_forall in D. specialize (D fm Hf). unfold fields_disjoint in D.
  rewrite forallb_forall in D. specialize (D a Ha).
  rewrite forallb_forall in D. specialize (D b Hb).
  apply orb_true_iff in D as [D|D]; [apply String.eqb_eq in D; contradiction|].
  rewrite forallb_forall in D.
  unfold uses in Ua, Ub. unfold bits_of in D.
  destruct (layout fm a) as [[[? ?] la]|]; [|contradiction].
  destruct (layout fm b) as [[[? ?] lb]|]; [|contradiction].
  specialize (D _ Ua). cbn in D. apply existsb_is_bit in Ub. rewrite Ub in D. discriminate.
Qed.

Lemma fmt_widths : forallb (fun fm => 0 <=? fm_width fm) all_formats = true.
Proof. vm_compute. reflexivity. Qed.

Lemma insert_in_word fm name v w : In fm all_formats -> In name (operands_of fm) ->
  inw (fm_width fm) w -> inw (fm_width fm) (insert fm name v w).
Proof.
  intros Hf Hn Hw. apply width_lemma; auto.
  pose proof fmt_widths as W. rewrite forallb_forall in W. specialize (W fm Hf). lia.
Qed.

(** * The table of manual operands *)

Lemma manual_fields_agree :
  forallb (fun p => let '(o, fm, n) := p in agrees o fm n) manual_fields = true.
Proof. vm_compute. reflexivity. Qed.

Lemma manual_field_agrees o fm n : In (o, fm, n) manual_fields -> agrees o fm n = true.
Proof.
  intros H. pose proof manual_fields_agree as A. rewrite forallb_forall in A.
  exact (A _ H).
Qed.

(** * Assembler *)

Lemma scatter_ext l v v' w : (forall i, 0 <= i < len l -> Z.testbit v i = Z.testbit v' i) ->
  scatter l v w = scatter l v' w.
Proof.
  induction l as [|s r IH]; intros H; cbn [scatter List.length] in *; [reflexivity|].
  rewrite IH by (intros; apply H; lia).
  destruct s; [|reflexivity]. rewrite (H (len r)) by lia. reflexivity.
Qed.

Lemma wrap_bits n x y i : 0 <= i < n -> wrap n x = wrap n y -> Z.testbit x i = Z.testbit y i.
Proof.
  intros Hi E. apply (f_equal (fun z => Z.testbit z i)) in E.
  rewrite !wrap_testbit in E by lia. destruct (Z.ltb_spec i n); [exact E|lia].
Qed.

Lemma insert_congr o fm name v v' w : agrees o fm name = true -> o_width o <= 32 ->
  wrap 32 v = wrap 32 v' -> insert fm name v w = insert fm name v' w.
Proof.
  intros A Hw E. destruct (agrees_facts _ _ _ A) as [l F]. destruct F.
  unfold insert. rewrite af_layout0. apply scatter_ext.
  intros i Hi. apply (wrap_bits 32); [lia|exact E].
Qed.

Definition names_ok (cls : regclass) (l : list (string * Z)) : bool :=
  forallb (fun n =>
    let '(abi, pre) := match cls with RX => (abi_x, "x") | RF => (abi_f, "f")
                                    | RD => (abi_d, "d") end in
    let ok s := match find_name l s with Some x => x =? n | None => true end in
    ok (nth (Z.to_nat n) abi "") && ok (String.append pre (nth (Z.to_nat n) digits "")))
  (zrange 32).

Definition csr_ok (l : list (string * Z)) : bool :=
  forallb (fun p => String.eqb (fst p) "mnstatus" ||
     match find_name l (fst p) with Some x => x =? snd p | None => true end) csr_manual.

Definition parser_ok (k : opkind) (p : parser) : bool :=
  match k, p with
  | KReg cls, SRegs l => names_ok cls l
  | KCsr, SRegs l => csr_ok l
  | KOrder s, SRegs l =>
    negb (String.eqb s "") &&
    match find_name l "", find_name l s with
    | Some x, Some y => (x =? 0) && (y =? 1)
    | _, _ => false
    end
  | KImm, SInt _ => true
  | KPcRel, SRel _ w => 32 <=? w
  | _, _ => false
  end.

Lemma wrap_sgn32 x : wrap 32 (sgn 32 x) = wrap 32 x.
Proof. apply wrap_sgn; lia. Qed.

Lemma text_congr s t x : text_to_int s t = Some x ->
  forall z, match t with THex n => z = n | TDec n => z = n | TSym n => z = n | TReg _ => False end ->
  wrap 32 x = wrap 32 z.
Proof.
  destruct t as [n|n|n|n]; cbn [text_to_int]; intros H z Hz; [contradiction| | |]; subst z.
  - destruct (fits32 s n); [congruence|discriminate].
  - destruct (fits32 s n); [congruence|discriminate].
  - injection H as <-. destruct s; [apply wrap_sgn32|apply wrap_wrap; lia].
Qed.

Lemma parse_congr k p address t v x : parser_ok k p = true -> means k address t v ->
  t <> TReg "mnstatus" -> parse p address t = Some x -> wrap 32 x = wrap 32 v.
Proof.
  intros P M NM E. destruct k as [cls| | | |suf]; destruct p as [l|sg|sg w]; try discriminate P.
  - destruct t as [n| | |]; try contradiction. cbn [parser_ok parse means] in *.
    unfold names_ok in P. rewrite forallb_forall in P. destruct M as [R M].
    specialize (P v (proj2 (zrange_in _ _) R)).
    destruct cls; apply andb_true_iff in P as [P1 P2]; destruct M as [-> | ->];
      (rewrite E in P1 + rewrite E in P2); 
      match goal with H : (x =? v) = true |- _ => apply Z.eqb_eq in H; subst; reflexivity end.
  - destruct t as [n|n|n|n]; try contradiction; cbn [parse means] in *;
      destruct (text_to_int sg _) as [y|] eqn:T; try discriminate; injection E as <-;
      rewrite wrap_wrap_le by lia; eapply text_congr; try exact T; exact M.
  - cbn [parser_ok] in P. apply Z.leb_le in P.
    assert (exists z, v = z - address /\
      match t with THex n => z = n | TDec n => z = n | TSym n => z = n | TReg _ => False end)
      as (z & -> & Hz).
    { destruct t; cbn [means] in M; try contradiction; eexists; eauto. }
    cbn [parse] in E. destruct (text_to_int sg t) as [y|] eqn:T; [|discriminate].
    injection E as <-. rewrite wrap_wrap_le by lia.
    pose proof (text_congr _ _ _ T z Hz) as C.
    rewrite <- wrap_sub_l by lia. rewrite wrap_wrap_le by lia. rewrite C.
    apply wrap_sub_l; lia.
  - destruct t as [n| | |]; try contradiction. cbn [parser_ok parse means] in *.
    unfold csr_ok in P. rewrite forallb_forall in P. specialize (P _ M). cbn [fst snd] in P.
    apply orb_true_iff in P as [P|P].
    + apply String.eqb_eq in P. subst n. contradiction.
    + rewrite E in P. apply Z.eqb_eq in P. subst; reflexivity.
  - destruct t as [n| | |]; try contradiction. cbn [parser_ok parse means] in *.
    apply andb_true_iff in P as [_ P].
    destruct (find_name l "") as [x0|] eqn:E0; [|discriminate].
    destruct (find_name l suf) as [x1|] eqn:E1; [|discriminate].
    apply andb_true_iff in P as [P0 P1]. apply Z.eqb_eq in P0, P1.
    destruct M as [[-> ->] | [-> ->]]; [rewrite E0 in E|rewrite E1 in E]; injection E as <-;
      subst; reflexivity.
Qed.

Definition all_asmops : list asmop :=
  [AAq; ARl; BImm12; C3drs2; C3rs1; C3rs2; CSRUimm5; Csr; Cdrs2; Crs1; Crs2;
   Drs1; Drs2; Drs3; Frs1; Frs2; Frs3;
   ICbImm8; ICiImm6; ICiImm612; ICiImm6x16; ICiUimm6; ICiUimm6x4; ICiUimm6x8;
   ICiwUimm8x4; ICjImm11; IClUimm5x4; IClUimm5x8; ICssUimm6x4; ICssUimm6x8;
   IImm12; IUimm5; IUimm6; JImm12; JImm20; Pred; SrcRd; Rm; Rs1; Rs2; SImm12;
   Succ; UImm20; C3drd; C3rd; DestC3rs1; Drd; Frd; DestRd].
Lemma all_asmops_in a : In a all_asmops.
Proof. destruct a; unfold all_asmops; repeat (left; reflexivity) || right; fail. Qed.

(** The setters that write where the getters read. *)
Definition setter_ok (a : asmop) : bool :=
  let '(k, o) := asm_spec a in
  let '(p, fm, fld) := setter a in
  agrees o fm fld && (o_width o <=? 32) && parser_ok k p.

Lemma setters_ok a : ~ In a wrong_setters -> setter_ok a = true.
Proof.
  intros H. destruct a; try (vm_compute; reflexivity);
    exfalso; apply H; unfold wrong_setters; cbn; tauto.
Qed.

Definition getter_ok (a : asmop) : bool :=
  let '(k, o) := asm_spec a in
  let '(fm, fld, as32) := getter a in
  agrees o fm fld && (o_width o <=? 32) &&
  (match a with UImm20 => as32 | _ => negb as32 || o_signed o || (o_width o <? 32) end).

Lemma getters_ok a : getter_ok a = true.
Proof. destruct a; vm_compute; reflexivity. Qed.

Lemma getter_lemma a w v : encodes (snd (asm_spec a)) w v -> get_operand a w = stored a v.
Proof.
  intros EN. pose proof (getters_ok a) as G. unfold getter_ok in G. unfold get_operand.
  destruct (asm_spec a) as [k o] eqn:Ea. cbn [snd] in EN.
  destruct (getter a) as [[fm fld] as32] eqn:Eg.
  apply andb_true_iff in G as [G G3]. apply andb_true_iff in G as [G1 G2].
  assert (extract fm fld w = v) as ->.
  { apply (encodes_unique_lemma o fm fld w); auto. apply extract_encodes; exact G1. }
  destruct (agrees_facts _ _ _ G1) as [l F]. destruct F.
  assert (as32 = true -> (o_signed o = true \/ o_width o < 32) -> sgn 32 v = v) as S.
  { intros _ HS. destruct EN as [[R _] _]. apply Z.leb_le in G2.
    destruct (o_signed o).
    - apply sgn_id; [lia|].
      pose proof (Z.pow_le_mono_r 2 (o_width o - 1) (32 - 1) ltac:(lia) ltac:(lia)). lia.
    - apply sgn_id; [lia|]. destruct HS as [HS|HS]; [discriminate|].
      pose proof (Z.pow_le_mono_r 2 (o_width o) (32 - 1) ltac:(lia) ltac:(lia)). lia. }
  destruct as32.
  - assert (a <> UImm20 -> o_signed o = true \/ o_width o < 32) as S2.
    { intros NU. destruct (o_signed o); [left; reflexivity|right]. apply Z.ltb_lt.
      destruct a; try exact G3; contradiction. }
    destruct a; cbn [stored]; try reflexivity; apply S; auto; apply S2; discriminate.
  - destruct a; cbn [stored]; try reflexivity. discriminate.
Qed.

Lemma asm_lemma a address t v c : ~ In a wrong_setters -> t <> TReg "mnstatus" ->
  means (fst (asm_spec a)) address t v -> legal (snd (asm_spec a)) v ->
  set_operand a address t = Some c ->
  encodes (snd (asm_spec a)) c v /\
  (forall k, 0 <= k -> ~ carries (snd (asm_spec a)) k -> Z.testbit c k = false).
Proof.
  intros Hw Hm M L E. pose proof (setters_ok a Hw) as S. unfold setter_ok in S.
  unfold set_operand in E.
  destruct (asm_spec a) as [k o]. cbn [fst snd] in *.
  destruct (setter a) as [[p fm] fld].
  apply andb_true_iff in S as [S S3]. apply andb_true_iff in S as [S1 S2].
  destruct (parse p address t) as [x|] eqn:P; [|discriminate]. injection E as <-.
  pose proof (parse_congr k p address t v x S3 M Hm P) as C.
  rewrite (insert_congr o fm fld x v 0 S1 ltac:(lia) C).
  destruct (insert_encodes o fm fld v 0 S1 L) as [I1 I2]. split; [exact I1|].
  intros j Hj Hc. rewrite I2 by assumption. apply Z.testbit_0_l.
Qed.

Lemma encodes_ext o w w' v : (forall k, carries o k -> Z.testbit w k = Z.testbit w' k) ->
  encodes o w v -> encodes o w' v.
Proof.
  intros H [L S]. split; [exact L|]. intros s Hs j Hj. rewrite (S s Hs j Hj).
  apply H. exists s. split; [exact Hs|lia].
Qed.

Lemma asm_roundtrip_lemma a address t v c w : ~ In a wrong_setters -> t <> TReg "mnstatus" ->
  means (fst (asm_spec a)) address t v -> legal (snd (asm_spec a)) v ->
  set_operand a address t = Some c ->
  (forall k, carries (snd (asm_spec a)) k -> Z.testbit w k = Z.testbit c k) ->
  get_operand a w = stored a v.
Proof.
  intros Hw Hm M L E HB. apply getter_lemma.
  destruct (asm_lemma a address t v c Hw Hm M L E) as [EN _].
  apply (encodes_ext _ c); [|exact EN]. intros k Hk. symmetry. apply HB; exact Hk.
Qed.

(** Acceptance. *)
Definition names_found (cls : regclass) (l : list (string * Z)) (n : Z) : bool :=
  let '(abi, pre) := match cls with RX => (abi_x, "x") | RF => (abi_f, "f")
                                  | RD => (abi_d, "d") end in
  let ok s := match find_name l s with Some x => true | None => false end in
  ok (nth (Z.to_nat n) abi "") && ok (String.append pre (nth (Z.to_nat n) digits "")).

Definition csr_found (l : list (string * Z)) : bool :=
  forallb (fun p => existsb (String.eqb (fst p)) missing_csrs ||
     match find_name l (fst p) with Some x => true | None => false end) csr_manual.

Definition legal_creg (o : operand) : bool :=
  existsb (fun p => (fst p =? 4) && negb (snd p)) (o_fixed o) &&
  existsb (fun p => (fst p =? 3) && snd p) (o_fixed o).

Definition accept_ok (a : asmop) : bool :=
  let '(k, o) := asm_spec a in
  let '(p, fm, fld) := setter a in
  match k, p with
  | KReg cls, SRegs l =>
    (o_width o =? 5) && negb (o_signed o) &&
    (forallb (names_found cls l) (zrange 32) ||
     (legal_creg o && forallb (fun n => names_found cls l (8 + n)) (zrange 8)))
  | KCsr, SRegs l => csr_found l
  | KOrder s, SRegs l => parser_ok k p
  | KImm, SInt sg => (1 <=? o_width o) && (o_width o <=? 32) &&
      if sg then o_width o <? 32 else negb (o_signed o)
  | KPcRel, SRel sg w => true
  | _, _ => false
  end.

Lemma accepts_ok a : a <> Rm -> a <> SImm12 -> accept_ok a = true.
Proof. intros H1 H2. destruct a; try contradiction; vm_compute; reflexivity. Qed.

Lemma accept_lemma a address t v : a <> Rm -> a <> SImm12 ->
  means (fst (asm_spec a)) address t v -> legal (snd (asm_spec a)) v ->
  (fst (asm_spec a) = KPcRel ->
     match t with THex n => 0 <= n < 2 ^ 31 | TDec n => 0 <= n < 2 ^ 31 | _ => True end) ->
  (forall n, t = TReg n -> ~ In n missing_csrs) ->
  exists c, set_operand a address t = Some c.
Proof.
  intros H1 H2 M [L LF] HR HC. pose proof (accepts_ok a H1 H2) as A.
  unfold accept_ok in A. unfold set_operand.
  destruct (asm_spec a) as [k o]. cbn [fst snd] in *. destruct (setter a) as [[p fm] fld].
  cut (exists x, parse p address t = Some x).
  { intros [x ->]. eexists; reflexivity. }
  destruct k as [cls| | | |suf]; destruct p as [l|sg|sg w]; try discriminate A.
  - destruct t as [n| | |]; try contradiction. cbn [parse].
    apply andb_true_iff in A as [A A3]. apply andb_true_iff in A as [A1 A2].
    apply Z.eqb_eq in A1. destruct M as [R M].
    assert (names_found cls l v = true) as NF.
    { apply orb_true_iff in A3 as [A3|A3].
      - rewrite forallb_forall in A3. apply A3, zrange_in, R.
      - apply andb_true_iff in A3 as [A3 A4]. apply andb_true_iff in A3 as [A3 A5].
        apply existsb_exists in A3 as [[i4 b4] [I4 E4]].
        apply existsb_exists in A5 as [[i3 b3] [I3 E3]]. cbn [fst snd] in *.
        apply LF in I4, I3.
        apply andb_true_iff in E4 as [Z4 N4]. apply Z.eqb_eq in Z4. subst i4.
        apply andb_true_iff in E3 as [Z3 N3]. apply Z.eqb_eq in Z3. subst i3.
        destruct b4; [discriminate|]. destruct b3; [|discriminate].
        assert (8 <= v < 16).
        { rewrite Z.testbit_true in I3 by lia. rewrite Z.testbit_false in I4 by lia.
          change (2 ^ 4) with 16 in I4. change (2 ^ 3) with 8 in I3.
          clear - R I3 I4. Z.div_mod_to_equations. lia. }
        rewrite forallb_forall in A4.
        assert (In (v - 8) (zrange 8)) as Hz by (apply zrange_in; lia).
        specialize (A4 (v - 8) Hz).
        replace (8 + (v - 8)) with v in A4 by lia. exact A4. }
    unfold names_found in NF.
    destruct cls; apply andb_true_iff in NF as [N1 N2]; destruct M as [-> | ->];
      [destruct (find_name l (nth (Z.to_nat v) abi_x "")); [eauto|discriminate]
      |destruct (find_name l ("x" ++ nth (Z.to_nat v) digits "")); [eauto|discriminate]
      |destruct (find_name l (nth (Z.to_nat v) abi_f "")); [eauto|discriminate]
      |destruct (find_name l ("f" ++ nth (Z.to_nat v) digits "")); [eauto|discriminate]
      |destruct (find_name l (nth (Z.to_nat v) abi_d "")); [eauto|discriminate]
      |destruct (find_name l ("d" ++ nth (Z.to_nat v) digits "")); [eauto|discriminate]].
  - cbn [parse]. apply andb_true_iff in A as [A A3]. apply andb_true_iff in A as [A1 A2].
    apply Z.leb_le in A1, A2.
    assert (fits32 sg v = true) as FT.
    { unfold fits32. destruct sg.
      - apply Z.ltb_lt in A3.
        pose proof (Z.pow_le_mono_r 2 (o_width o) 31 ltac:(lia) ltac:(lia)).
        pose proof (Z.pow_le_mono_r 2 (o_width o - 1) 31 ltac:(lia) ltac:(lia)).
        destruct (o_signed o); apply andb_true_iff; split; [apply Z.leb_le|apply Z.ltb_lt|
          apply Z.leb_le|apply Z.ltb_lt]; lia.
      - destruct (o_signed o); [discriminate|].
        pose proof (Z.pow_le_mono_r 2 (o_width o) 32 ltac:(lia) ltac:(lia)).
        apply andb_true_iff; split; [apply Z.leb_le|apply Z.ltb_lt]; lia. }
    destruct t as [n|n|n|n]; try contradiction; cbn [means] in M; subst v; cbn [text_to_int];
      try rewrite FT; eexists; reflexivity.
  - cbn [parse]. specialize (HR eq_refl).
    assert (forall n, 0 <= n < 2 ^ 31 -> fits32 sg n = true) as FT.
    { intros n Hn. unfold fits32. destruct sg; apply andb_true_iff; split;
        [apply Z.leb_le|apply Z.ltb_lt|apply Z.leb_le|apply Z.ltb_lt]; lia. }
    destruct t as [n|n|n|n]; try contradiction; cbn [text_to_int];
      try rewrite (FT n HR); eexists; reflexivity.
  - destruct t as [n| | |]; try contradiction. cbn [parse means] in *.
    unfold csr_found in A. rewrite forallb_forall in A. specialize (A _ M). cbn [fst] in A.
    apply orb_true_iff in A as [A|A].
    + exfalso. apply existsb_exists in A as [m [I1 I2]]. apply String.eqb_eq in I2. subst m.
      exact (HC n eq_refl I1).
    + destruct (find_name l n); [eauto|discriminate].
  - destruct t as [n| | |]; try contradiction. cbn [parse means parser_ok] in *.
    apply andb_true_iff in A as [_ A].
    destruct (find_name l "") as [x0|] eqn:E0; [|discriminate].
    destruct (find_name l suf) as [x1|] eqn:E1; [|discriminate].
    destruct M as [[-> ->] | [-> ->]]; [rewrite E0|rewrite E1]; eauto.
Qed.

(** SImm12 takes an unsigned number. *)
Lemma accept_simm12 address t v : means KImm address t v -> 0 <= v < 2 ^ 32 ->
  exists c, set_operand SImm12 address t = Some c.
Proof.
  intros M R. unfold set_operand. change (setter SImm12) with (SInt false, f_SType, "s_imm").
  assert (fits32 false v = true) as FT.
  { unfold fits32. apply andb_true_iff; split; [apply Z.leb_le|apply Z.ltb_lt]; lia. }
  destruct t as [n|n|n|n]; try contradiction; cbn [means] in M; subst v;
    cbn [parse text_to_int]; try rewrite FT; eexists; reflexivity.
Qed.
