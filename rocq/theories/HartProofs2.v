(** Invariants of hart histories; nested traps; handler depth. *)
From Coq Require Import ZArith Bool List Lia.
From Verif Require Import Bits CsrSpec StatusSpec StatusModel StatusProofs XipSpec XipModel XipProofs HartSpec HartModel HartProofs.
Import ListNotations.
Local Open Scope Z_scope.

(** ** Invariant *)
Lemma select_irq h c : select_interrupt h = Some c -> is_irq c = true.
Proof.
  unfold select_interrupt. fold (ints h). intros E.
  destruct (ints h =? 0); [discriminate|]. destruct (negb _); [discriminate|].
  fold (m_ints h) (s_ints h) in E.
  destruct (_ && negb (m_ints h =? 0)) eqn:M.
  - inversion E. apply pick_spec; [apply irq_only_land, ints_irq|]. apply andb_prop in M. apply Z.eqb_neq, negb_true_iff, M.
  - destruct (_ && negb (s_ints h =? 0)) eqn:S; [|discriminate].
    inversion E. apply pick_spec; [apply irq_only_land, irq_only_land, ints_irq|]. apply andb_prop in S. apply Z.eqb_neq, negb_true_iff, S.
Qed.

Lemma set_offer_wf h a c : hart_wf h -> (a = true -> is_irq c = true) -> hart_wf (set_offer h a c).
Proof. intros W A. unfold hart_wf in *. cbn [set_offer h_xlen h_priv h_status h_ip h_ie h_mideleg h_m h_s h_avail h_code]. intuition. Qed.
Lemma check_wf h : hart_wf h -> hart_wf (check_for_interrupt h).
Proof.
  intros W. unfold check_for_interrupt. destruct (select_interrupt h) eqn:E; [|exact W].
  apply set_offer_wf; [exact W|]. intros _. eapply select_irq; eassumption.
Qed.
Lemma check_if_wf b h : hart_wf h -> hart_wf (check_if b h).
Proof. destruct b; [apply check_wf|auto]. Qed.

Lemma fold_status_wf ops s : ms_wf s -> ms_wf (fold_left (status_step true) ops s).
Proof. revert s; induction ops as [|o ops IH]; intros s H; [exact H|]. apply IH, status_step_wf, H. Qed.
Lemma submit_last ops s : nothing_staged (fold_left (status_step true) (ops ++ [Submit]) s).
Proof. rewrite fold_left_app. cbn [fold_left status_step]. split; reflexivity. Qed.

Lemma fill_wf w q r : (w = 32 \/ w = 64) -> regs_wf w r -> regs_wf w (fill_trapregs w q r).
Proof.
  intros Hw (A & B & C & D). unfold regs_wf, fill_trapregs; cbn [t_epc t_cause t_tvec t_tval].
  ssplit; try (apply wrap_range; lia); [|exact C].
  destruct (q_int q); [|apply wrap_range; lia]. apply inw_lor; [lia|apply wrap_range; lia|].
  unfold inw. destruct Hw; subst w; lia.
Qed.

Lemma trap_result_wf h q d ops : hart_wf h -> 0 <= d < 4 ->
  nothing_staged (fold_left (status_step true) ops (h_status h)) -> hart_wf (trap_result h q d ops).
Proof.
  intros (Wx & Wp & Ws & Wv & Wi & We & Wd & Wd0 & Wm & Wss & Wa) Hd N.
  unfold hart_wf, trap_result; cbn [h_xlen h_priv h_status h_ip h_ie h_mideleg h_m h_s h_avail h_code].
  ssplit; auto; try lia.
  - apply fold_status_wf. exact Wv.
  - destruct (d =? 3); [apply fill_wf|]; auto.
  - destruct (d =? 3); [|apply fill_wf]; auto.
Qed.

Lemma dest_mode_range h q d : dest_mode h q = Some d -> d = 0 \/ d = 1 \/ d = 3.
Proof.
  unfold dest_mode. destruct (q_int q).
  - destruct (32 <=? _); [discriminate|]. destruct (negb _); [destruct (negb _)|]; intros E; inversion E; auto.
  - destruct (negb (h_priv h =? 3)); [|intros E; inversion E; auto]. destruct (64 <=? _); [discriminate|].
    destruct (negb _); intros E; inversion E; auto.
Qed.

Lemma trap_wf h q h' : hart_wf h -> trap h q = Some h' -> hart_wf h'.
Proof.
  intros W E. destruct (dest_mode h q) as [d|] eqn:D; [|unfold trap in E; rewrite D in E; discriminate].
  destruct (dest_mode_range _ _ _ D) as [-> | [-> | ->]].
  - unfold trap in E. rewrite D in E. inversion E; subst; exact W.
  - rewrite (trap_to_s h q D) in E. inversion E. apply check_if_wf, trap_result_wf; [exact W|lia|].
    apply (submit_last [SetField F_SPP (h_priv h mod 2); SetField F_SPIE (sf h F_SIE); SetField F_SIE 0]).
  - rewrite (trap_to_m h q D) in E. inversion E. apply check_if_wf, trap_result_wf; [exact W|lia|].
    apply (submit_last [SetField F_MPP (h_priv h); SetField F_MPIE (sf h F_MIE); SetField F_MIE 0]).
Qed.

Lemma ret_result_wf h pc p ops : hart_wf h -> 0 <= p < 4 ->
  nothing_staged (fold_left (status_step true) ops (h_status h)) -> hart_wf (ret_result h pc p ops).
Proof.
  intros (Wx & Wp & Ws & Wv & Wi & We & Wd & Wd0 & Wm & Wss & Wa) Hd N.
  unfold hart_wf, ret_result; cbn [h_xlen h_priv h_status h_ip h_ie h_mideleg h_m h_s h_avail h_code].
  ssplit; auto; try lia. apply fold_status_wf. exact Wv.
Qed.

Lemma set_counts_wf h t r : hart_wf h -> hart_wf (set_counts h t r).
Proof. auto. Qed.

Lemma mret_wf h a h' : hart_wf h -> mret h a = Some h' -> hart_wf h'.
Proof.
  intros W. unfold mret. destruct (negb (h_priv h =? 3)); [intros E; eapply trap_wf; eassumption|].
  intros E. inversion E as [E1]. unfold put_status. apply check_if_wf.
  assert (hart_wf (ret_result h (t_epc (h_m h)) (sf h F_MPP) (mret_ops h))) as R.
  { apply ret_result_wf; [exact W| |].
    - pose proof (sf_range h F_MPP) as R. change (2 ^ width F_MPP) with 4 in R. exact R.
    - apply (submit_last [SetField F_MIE (sf h F_MPIE); SetField F_MPIE 1; SetField F_MPP 0]). }
  unfold ret_result, mret_ops, sf in R. rewrite <- !ms_get_field in R. exact R.
Qed.
Lemma sret_wf h a h' : hart_wf h -> sret h a = Some h' -> hart_wf h'.
Proof.
  intros W. unfold sret. destruct (sret_illegal h); [intros E; eapply trap_wf; eassumption|].
  intros E. inversion E as [E1]. unfold put_status. apply check_if_wf.
  assert (hart_wf (ret_result h (t_epc (h_s h)) (sf h F_SPP) (sret_ops h))) as R.
  { apply ret_result_wf; [exact W| |].
    - pose proof (sf_range h F_SPP) as R. change (2 ^ width F_SPP) with 2 in R. lia.
    - apply (submit_last [SetField F_SIE (sf h F_SPIE); SetField F_SPIE 1; SetField F_SPP 0]). }
  unfold ret_result, sret_ops, sf in R. rewrite <- !ms_get_field in R. exact R.
Qed.

Lemma take_wf h e h' : hart_wf h -> take_interrupt h e = Some h' -> hart_wf h'.
Proof.
  intros W. unfold take_interrupt. destruct (negb (h_avail h)); [intros E; inversion E; subst; exact W|].
  destruct (trap h _) as [h1|] eqn:T; [|discriminate]. intros E. inversion E.
  apply set_counts_wf, set_offer_wf; [eapply trap_wf; eassumption|discriminate].
Qed.

Lemma put_status_wf h sc : hart_wf h -> nothing_staged (fst sc) -> ms_wf (fst sc) -> hart_wf (put_status h sc).
Proof.
  intros (Wx & Wp & Ws & Wv & Wi & We & Wd & Wd0 & Wm & Wss & Wa) N V. unfold put_status. apply check_if_wf.
  unfold hart_wf; cbn [h_xlen h_priv h_status h_ip h_ie h_mideleg h_m h_s h_avail h_code]. ssplit; auto; lia.
Qed.
Lemma put_ip_wf h ic : hart_wf h -> ip_wf (fst ic) -> hart_wf (put_ip h ic).
Proof.
  intros (Wx & Wp & Ws & Wv & Wi & We & Wd & Wd0 & Wm & Wss & Wa) N. unfold put_ip. apply check_if_wf.
  unfold hart_wf; cbn [h_xlen h_priv h_status h_ip h_ie h_mideleg h_m h_s h_avail h_code]. ssplit; auto; lia.
Qed.
Lemma put_ie_wf h ec : hart_wf h -> inw 64 (fst ec) -> hart_wf (put_ie h ec).
Proof.
  intros (Wx & Wp & Ws & Wv & Wi & We & Wd & Wd0 & Wm & Wss & Wa) N. unfold put_ie. apply check_if_wf.
  unfold hart_wf; cbn [h_xlen h_priv h_status h_ip h_ie h_mideleg h_m h_s h_avail h_code]. ssplit; auto; lia.
Qed.
Lemma set_regs_wf h m s : hart_wf h -> regs_wf (h_xlen h) m -> regs_wf (h_xlen h) s -> hart_wf (set_trapregs h m s).
Proof.
  intros (Wx & Wp & Ws & Wv & Wi & We & Wd & Wd0 & Wm & Wss & Wa) Hm Hs.
  unfold hart_wf; cbn [set_trapregs h_xlen h_priv h_status h_ip h_ie h_mideleg h_m h_s h_avail h_code]. ssplit; auto; lia.
Qed.

Lemma ms_word_rest w o s : ms_buf (fst (ms_word w o s)) = ms_buf s /\ ms_bufmask (fst (ms_word w o s)) = ms_bufmask s.
Proof. unfold ms_word. destruct (w =? 32), o; cbn; auto. Qed.
Lemma view_word_wf w o s : ms_wf (fst (sstatus_word w o s)).
Proof. unfold sstatus_word, view_word. destruct (w =? 32), o; apply ms_set64_wf. Qed.

Lemma plain_word_wf w m o old : 0 < w -> inw w m -> inw w old -> inw w (plain_word w m o old).
Proof.
  intros Hw Hm Ho. assert (forall v, inw w (Z.lor (Z.land (wrap w v) m) (Z.land old (wnot w m)))) as L.
  { intros v. apply inw_lor; [lia|apply inw_land_r; [lia|exact Hm]|apply inw_land_l; [lia|exact Ho]]. }
  unfold plain_word. destruct o; apply L.
Qed.
Lemma plain_word_bit w m o old i : 0 <= i < w ->
  Z.testbit (plain_word w m o old) i = if Z.testbit m i then bit_step i (Z.testbit old i) o else Z.testbit old i.
Proof.
  intros Hi. assert (forall v, Z.testbit (Z.lor (Z.land (wrap w v) m) (Z.land old (wnot w m))) i =
                       if Z.testbit m i then Z.testbit v i else Z.testbit old i) as L.
  { intros v. rewrite Z.lor_spec, !Z.land_spec, wrap_testbit, wnot_testbit by lia.
    replace (i <? w) with true by (symmetry; apply Z.ltb_lt; lia).
    destruct (Z.testbit m i), (Z.testbit v i), (Z.testbit old i); reflexivity. }
  unfold plain_word. destruct o; cbn [bit_step]; rewrite L; destruct (Z.testbit m i); try reflexivity.
  - apply Z.lor_spec.
  - rewrite Z.land_spec, wnot_testbit by lia. replace (i <? w) with true by (symmetry; apply Z.ltb_lt; lia). reflexivity.
Qed.

Lemma mideleg_word_irq w o old : (w = 32 \/ w = 64) -> irq_only old -> 0 <= old -> irq_only (plain_word w mideleg_mask o old) /\ 0 <= plain_word w mideleg_mask o old.
Proof.
  intros Hw I N.
  assert (forall v, irq_only (Z.lor (Z.land (wrap w v) mideleg_mask) (Z.land old (wnot w mideleg_mask))) /\ 0 <= Z.lor (Z.land (wrap w v) mideleg_mask) (Z.land old (wnot w mideleg_mask))) as L.
  { intros v. split.
    - intros i. rewrite Z.lor_spec, !Z.land_spec. intros H. apply orb_prop in H. destruct H as [H|H]; apply andb_prop in H.
      + assert (0 <= i) by (destruct (Z.lt_ge_cases i 0); [rewrite Z.testbit_neg_r in H by lia; destruct H; discriminate|lia]).
        unfold mideleg_mask in H. rewrite (is_irq_mask i) in H by lia. apply H.
      + apply I, H.
    - apply lor_nonneg'; [apply land_nonneg_r; unfold mideleg_mask; lia|apply land_nonneg_l; exact N]. }
  unfold plain_word. destruct o; apply L.
Qed.

Lemma sip_word_wf w mi o m : ip_wf m -> irq_only mi -> 0 <= mi -> ip_wf (fst (sip_word w mi o m)).
Proof.
  intros M I N.
  assert (forall v, ip_wf (fst (sip_set mi v m))) as L.
  { intros v. unfold sip_set. apply mip_set_wf; [exact M| |].
    - apply lor_nonneg'; apply land_nonneg_r; apply lor_nonneg'; try exact N; unfold sip_wmask; lia.
    - intros i Hi. rewrite Z.lor_spec, !Z.land_spec, !Z.lor_spec. intros H.
      assert (Z.testbit sip_wmask i || Z.testbit mi i = true) as H1 by (apply orb_prop in H; destruct H as [H|H]; apply andb_prop in H; apply H).
      apply orb_prop in H1. destruct H1 as [H1|H1]; [apply (sip_wmask_irq i Hi H1)|apply I, H1]. }
  unfold sip_word, sip_write. destruct o; apply L.
Qed.

Lemma u64_inw v : u64_ok v = true -> 0 <= v < 2 ^ 64.
Proof. unfold u64_ok. intros H. apply andb_prop in H. destruct H as [A B]. apply Z.leb_le in A. apply Z.ltb_lt in B. lia. Qed.

Lemma ones_inw w : 0 <= w -> inw w (Z.ones w).
Proof. intros. unfold inw. rewrite Z.ones_equiv. pose proof (pow2_pos w H). lia. Qed.

Lemma csr_step_wf h k o : hart_wf h -> hart_op_ok (h_xlen h) (HCsr k o) = true -> hart_wf (hart_csr_step h k o).
Proof.
  intros W Ok. pose proof W as (Wx & Wp & Ws & Wv & Wi & We & Wd & Wd0 & Wm & Wss & Wa).
  assert (0 < h_xlen h) as Px by lia.
  assert (inw (h_xlen h) (Z.ones (h_xlen h))) as Po by (apply ones_inw; lia).
  cbn [hart_op_ok] in Ok.
  destruct Wm as (M1 & M2 & M3 & M4). destruct Wss as (S1 & S2 & S3 & S4).
  destruct k; cbn [hart_csr_step];
    try (apply set_regs_wf; [exact W| |]; unfold regs_wf; cbn [up_epc up_cause up_tvec up_tval t_epc t_cause t_tvec t_tval]; ssplit; auto; apply plain_word_wf; auto).
  - apply put_status_wf; [exact W| |].
    + destruct (ms_word_rest (h_xlen h) o (h_status h)) as [A B]. destruct Ws. split; congruence.
    + apply (status_step_wf true _ (Word (h_xlen h) o)). exact Wv.
  - apply put_status_wf; [exact W| |apply view_word_wf].
    destruct (sstatus_word_rest (h_xlen h) o (h_status h)) as [A B]. destruct Ws. split; congruence.
  - apply put_ip_wf; [exact W|]. apply (ip_step_wf (h_ip h) (IpWord (h_xlen h) o)); [exact Wi|].
    cbn [ip_op_ok]. destruct o; cbn [csr_arg] in Ok; rewrite <- andb_assoc, Ok, andb_true_r; destruct Wx as [-> | ->]; reflexivity.
  - apply put_ip_wf; [exact W|]. apply sip_word_wf; assumption.
  - apply put_ie_wf; [exact W|]. unfold mie_word. destruct o; cbn; apply wrap_range; lia.
  - apply put_ie_wf; [exact W|]. unfold sie_word. destruct o; cbn; apply wrap_range; lia.
  - destruct (mideleg_word_irq (h_xlen h) o (h_mideleg h) Wx Wd Wd0) as [A B].
    unfold hart_wf; cbn [set_deleg h_xlen h_priv h_status h_ip h_ie h_mideleg h_m h_s h_avail h_code]. ssplit; auto; try lia; unfold regs_wf; ssplit; auto.
Qed.

Lemma hart_step_wf h o h' : hart_wf h -> hart_op_ok (h_xlen h) o = true -> hart_step h o = Some h' -> hart_wf h'.
Proof.
  intros W Ok E. destruct o as [tv code epc|epc|a|a|k o|i v|v| |p]; cbn [hart_step] in E.
  - eapply trap_wf; eassumption.
  - eapply take_wf; eassumption.
  - eapply mret_wf; eassumption.
  - eapply sret_wf; eassumption.
  - inversion E. apply csr_step_wf; assumption.
  - inversion E. apply put_ip_wf; [exact W|]. apply (ip_step_wf (h_ip h) (IpField i v)); [apply W|].
    cbn [hart_op_ok] in Ok. unfold u64_ok in Ok. cbn [ip_op_ok]. rewrite <- andb_assoc. exact Ok.
  - inversion E. unfold set_ext_line. apply put_ip_wf; [exact W|]. apply (ip_step_wf (h_ip h) (IpLine v)); [apply W|reflexivity].
  - inversion E. apply check_wf, W.
  - inversion E. cbn [hart_op_ok] in Ok. apply andb_prop in Ok. destruct Ok as [A B]. apply Z.leb_le in A. apply Z.ltb_lt in B.
    destruct W as (Wx & Wp & Ws & Wv & Wi & We & Wd & Wd0 & Wm & Wss & Wa).
    unfold hart_wf; cbn [set_priv h_xlen h_priv h_status h_ip h_ie h_mideleg h_m h_s h_avail h_code]. ssplit; auto; lia.
Qed.

Lemma set_offer_xlen h a c : h_xlen (set_offer h a c) = h_xlen h. Proof. reflexivity. Qed.
Lemma check_if_xlen b h : h_xlen (check_if b h) = h_xlen h.
Proof. destruct (check_if_frame b h) as (a & c & ->). reflexivity. Qed.
Lemma trap_xlen h q h' : trap h q = Some h' -> h_xlen h' = h_xlen h.
Proof.
  intros E. destruct (dest_mode h q) as [d|] eqn:D; [|unfold trap in E; rewrite D in E; discriminate].
  destruct (dest_mode_range _ _ _ D) as [-> | [-> | ->]].
  - unfold trap in E. rewrite D in E. inversion E; reflexivity.
  - rewrite (trap_to_s h q D) in E. inversion E. rewrite check_if_xlen. reflexivity.
  - rewrite (trap_to_m h q D) in E. inversion E. rewrite check_if_xlen. reflexivity.
Qed.
Lemma step_xlen h o h' : hart_step h o = Some h' -> h_xlen h' = h_xlen h.
Proof.
  intros E. destruct o as [tv code epc|epc|a|a|k o|i v|v| |p]; cbn [hart_step] in E.
  - eapply trap_xlen; eassumption.
  - unfold take_interrupt in E. destruct (negb _); [inversion E; reflexivity|].
    destruct (trap h _) eqn:T; [|discriminate]. inversion E. cbn [set_counts set_offer h_xlen]. eapply trap_xlen; eassumption.
  - unfold mret in E. destruct (negb _); [eapply trap_xlen; eassumption|]. inversion E. unfold put_status. rewrite check_if_xlen. reflexivity.
  - unfold sret in E. destruct (sret_illegal h); [eapply trap_xlen; eassumption|]. inversion E. unfold put_status. rewrite check_if_xlen. reflexivity.
  - inversion E. destruct k; cbn [hart_csr_step]; try reflexivity; unfold put_status, put_ip, put_ie; rewrite check_if_xlen; reflexivity.
  - inversion E. unfold put_ip. rewrite check_if_xlen. reflexivity.
  - inversion E. unfold set_ext_line, put_ip. rewrite check_if_xlen. reflexivity.
  - inversion E. unfold check_for_interrupt. destruct (select_interrupt h); reflexivity.
  - inversion E. reflexivity.
Qed.

Lemma hart_run_wf ops h h' : hart_wf h -> forallb (hart_op_ok (h_xlen h)) ops = true -> hart_run h ops = Some h' -> hart_wf h'.
Proof.
  revert h; induction ops as [|o ops IH]; intros h W Ok E; cbn [hart_run] in E; [inversion E; subst; exact W|].
  cbn [forallb] in Ok. apply andb_prop in Ok. destruct Ok as [Oo Oops].
  destruct (hart_step h o) as [h1|] eqn:S; [|discriminate].
  apply (IH h1); [eapply hart_step_wf; eassumption| |exact E].
  rewrite (step_xlen _ _ _ S). exact Oops.
Qed.
Lemma init_wf w pc : (w = 32 \/ w = 64) -> hart_wf (hart_init w pc).
Proof.
  intros Hw. unfold hart_wf, hart_init, nothing_staged, ip_wf, regs_wf, zero_regs, inw, irq_only;
  cbn [h_xlen h_priv h_status h_ip h_ie h_mideleg h_m h_s h_avail h_code ms_buf ms_bufmask ms_value ip_value ip_ext t_epc t_cause t_tvec t_tval].
  pose proof (pow2_pos w ltac:(lia)). pose proof (pow2_pos 64 ltac:(lia)). 
  repeat apply conj; auto; try lia; intros i H'; rewrite Z.bits_0 in H'; discriminate.
Qed.

(** No operation is undefined on a reachable hart. *)
Lemma trap_defined h q : 0 <= q_code q < 32 -> trap h q <> None.
Proof.
  intros Hc E. destruct (dest_mode h q) as [d|] eqn:D.
  - destruct (dest_mode_range _ _ _ D) as [-> | [-> | ->]].
    + unfold trap in E. rewrite D in E. discriminate.
    + rewrite (trap_to_s h q D) in E. discriminate.
    + rewrite (trap_to_m h q D) in E. discriminate.
  - unfold dest_mode in D. replace (32 <=? q_code q) with false in D by (symmetry; apply Z.leb_gt; lia).
    replace (64 <=? q_code q) with false in D by (symmetry; apply Z.leb_gt; lia).
    destruct (q_int q); [destruct (negb _); [destruct (negb _)|]; discriminate|].
    destruct (negb (h_priv h =? 3)); [destruct (negb _)|]; discriminate.
Qed.
Lemma step_defined h o : hart_wf h -> hart_op_ok (h_xlen h) o = true -> hart_step h o <> None.
Proof.
  intros W Ok. destruct o as [tv code epc|epc|a|a|k o|i v|v| |p]; cbn [hart_step]; try discriminate.
  - apply trap_defined. cbn [q_code]. cbn [hart_op_ok] in Ok. apply andb_prop in Ok. destruct Ok as [A B]. apply andb_prop in A. destruct A as [_ A].
    apply Z.leb_le in A. apply Z.ltb_lt in B. lia.
  - unfold take_interrupt. destruct (h_avail h) eqn:A; cbn [negb]; [|discriminate].
    destruct (trap h _) eqn:T; [discriminate|]. exfalso. revert T. apply trap_defined. cbn [q_code].
    destruct W as (_ & _ & _ & _ & _ & _ & _ & _ & _ & _ & Wa). specialize (Wa A). apply is_irq_range in Wa. lia.
  - unfold mret. destruct (negb _); [apply trap_defined; cbn; lia|discriminate].
  - unfold sret. destruct (sret_illegal h); [apply trap_defined; cbn; lia|discriminate].
Qed.
Lemma run_defined ops h : hart_wf h -> forallb (hart_op_ok (h_xlen h)) ops = true -> exists h', hart_run h ops = Some h'.
Proof.
  revert h; induction ops as [|o ops IH]; intros h W Ok; [exists h; reflexivity|].
  cbn [forallb] in Ok. apply andb_prop in Ok. destruct Ok as [Oo Oops]. cbn [hart_run].
  destruct (hart_step h o) as [h1|] eqn:S; [|exfalso; revert S; apply step_defined; assumption].
  apply IH; [eapply hart_step_wf; eassumption|]. rewrite (step_xlen _ _ _ S). exact Oops.
Qed.
