(** Nested traps, take points, handler depth. *)
From Coq Require Import ZArith Bool List Lia.
From Verif Require Import Bits CsrSpec StatusSpec StatusModel StatusProofs XipSpec XipModel XipProofs HartSpec HartModel HartProofs HartProofs2.
Import ListNotations.
Local Open Scope Z_scope.

(** ** CSR writes used by handlers *)
Definition keeps (h h' : hart) : Prop :=
  h_xlen h' = h_xlen h /\ h_priv h' = h_priv h /\ h_mideleg h' = h_mideleg h /\ h_medeleg h' = h_medeleg h /\
  h_sideleg h' = h_sideleg h.

Lemma mstatus_write_step h v : hart_wf h -> 0 <= v < 2 ^ h_xlen h ->
  let h' := hart_csr_step h K_mstatus (CsrWrite v) in
  hart_wf h' /\ keeps h h' /\ h_m h' = h_m h /\ h_s h' = h_s h /\ forall f, sf h' f = field_of f v.
Proof.
  intros W V h'. split; [apply csr_step_wf; [exact W|]; cbn; apply andb_true_intro; split; [apply Z.leb_le|apply Z.ltb_lt]; lia|].
  subst h'. cbn [hart_csr_step]. unfold put_status. destruct (check_if_frame (snd (ms_word (h_xlen h) (CsrWrite v) (h_status h)))
    {| h_xlen := h_xlen h; h_priv := h_priv h; h_status := fst (ms_word (h_xlen h) (CsrWrite v) (h_status h)); h_ip := h_ip h; h_ie := h_ie h;
     h_mideleg := h_mideleg h; h_medeleg := h_medeleg h; h_sideleg := h_sideleg h;
     h_m := h_m h; h_s := h_s h; h_pc := h_pc h; h_branch := h_branch h;
     h_avail := h_avail h; h_code := h_code h; h_taken := h_taken h; h_returns := h_returns h |}) as (a & c & ->).
  ssplit; try reflexivity. { repeat split. }
  intros f. unfold sf. cbn [set_offer h_status].
  destruct W as (Wx & _ & Ws & _). rewrite (staged_fresh _ Ws).
  change (fst (ms_word (h_xlen h) (CsrWrite v) (fresh_status (ms_value (h_status h)))))
    with (fold_left (status_step true) [Word (h_xlen h) (CsrWrite v)] (fresh_status (ms_value (h_status h)))).
  rewrite ops_field; [reflexivity|]. cbn. rewrite andb_true_r.
  replace ((h_xlen h =? 32) || (h_xlen h =? 64)) with true by (destruct Wx as [-> | ->]; reflexivity).
  apply andb_true_intro; split; [apply Z.leb_le|apply Z.ltb_lt]; lia.
Qed.

Lemma sstatus_field w v s f : (w = 32 \/ w = 64) ->
  field_of f (ms_value (fst (sstatus_word w (CsrWrite v) s))) = if s_writable f then field_of f v else field_of f (ms_value s).
Proof.
  intros Hw. pose proof (off_bounds f) as B.
  assert (forall k, 0 <= k < width f -> s_write_bit (off f + k) = s_writable f) as WB.
  { intros k Hk. assert (k = 0 \/ k = 1) as [-> | ->] by lia; destruct f; try (vm_compute; reflexivity); cbn in Hk; lia. }
  apply (eq_field_bits f); [apply field_range|destruct (s_writable f); apply field_range|].
  intros k Hk. rewrite field_testbit, sstatus_word_bit, WB by (assumption || lia).
  destruct (s_writable f); rewrite field_testbit by assumption; reflexivity.
Qed.
Lemma sstatus_write_step h v : hart_wf h -> 0 <= v < 2 ^ h_xlen h ->
  let h' := hart_csr_step h K_sstatus (CsrWrite v) in
  hart_wf h' /\ keeps h h' /\ h_m h' = h_m h /\ h_s h' = h_s h /\
  forall f, sf h' f = if s_writable f then field_of f v else sf h f.
Proof.
  intros W V h'. split; [apply csr_step_wf; [exact W|]; cbn; apply andb_true_intro; split; [apply Z.leb_le|apply Z.ltb_lt]; lia|].
  subst h'. cbn [hart_csr_step]. unfold put_status. destruct (check_if_frame (snd (sstatus_word (h_xlen h) (CsrWrite v) (h_status h)))
    {| h_xlen := h_xlen h; h_priv := h_priv h; h_status := fst (sstatus_word (h_xlen h) (CsrWrite v) (h_status h)); h_ip := h_ip h; h_ie := h_ie h;
     h_mideleg := h_mideleg h; h_medeleg := h_medeleg h; h_sideleg := h_sideleg h;
     h_m := h_m h; h_s := h_s h; h_pc := h_pc h; h_branch := h_branch h;
     h_avail := h_avail h; h_code := h_code h; h_taken := h_taken h; h_returns := h_returns h |}) as (a & c & ->).
  ssplit; try reflexivity. { repeat split. }
  intros f. unfold sf at 1. cbn [set_offer h_status]. apply sstatus_field. apply W.
Qed.

Lemma plain_all w v old : 0 < w -> inw w v -> inw w old -> plain_word w (Z.ones w) (CsrWrite v) old = v.
Proof.
  intros Hw V O. apply (inw_eq_bits w); [lia|apply plain_word_wf; auto; apply ones_inw; lia|exact V|].
  intros i Hi. rewrite plain_word_bit by lia. rewrite Z.ones_spec_low by lia. reflexivity.
Qed.
Lemma mepc_write_step h v : hart_wf h -> 0 <= v < 2 ^ h_xlen h ->
  let h' := hart_csr_step h K_mepc (CsrWrite v) in
  hart_wf h' /\ keeps h h' /\ h_m h' = up_epc v (h_m h) /\ h_s h' = h_s h /\ forall f, sf h' f = sf h f.
Proof.
  intros W V h'. split; [apply csr_step_wf; [exact W|]; cbn; apply andb_true_intro; split; [apply Z.leb_le|apply Z.ltb_lt]; lia|].
  subst h'. cbn [hart_csr_step]. destruct W as (Wx & _ & _ & _ & _ & _ & _ & _ & Wm & _). rewrite plain_all; [|lia|exact V|apply Wm].
  ssplit; try reflexivity. repeat split.
Qed.
Lemma sepc_write_step h v : hart_wf h -> 0 <= v < 2 ^ h_xlen h ->
  let h' := hart_csr_step h K_sepc (CsrWrite v) in
  hart_wf h' /\ keeps h h' /\ h_s h' = up_epc v (h_s h) /\ h_m h' = h_m h /\ forall f, sf h' f = sf h f.
Proof.
  intros W V h'. split; [apply csr_step_wf; [exact W|]; cbn; apply andb_true_intro; split; [apply Z.leb_le|apply Z.ltb_lt]; lia|].
  subst h'. cbn [hart_csr_step]. destruct W as (Wx & _ & _ & _ & _ & _ & _ & _ & _ & Wm & _). rewrite plain_all; [|lia|exact V|apply Wm].
  ssplit; try reflexivity. repeat split.
Qed.

(** Reading back the status register gives its fields. *)
Lemma field_bits_eq f x y : (forall i, 0 <= i < 23 -> in_field i f = true -> Z.testbit x i = Z.testbit y i) -> field_of f x = field_of f y.
Proof.
  intros H. pose proof (off_bounds f). apply (eq_field_bits f); try apply field_range. intros k Hk.
  rewrite !field_testbit by assumption. apply H; [lia|]. unfold in_field. apply andb_true_intro; split; [apply Z.leb_le|apply Z.ltb_lt]; lia.
Qed.
Lemma field_rmask f i : 0 <= i < 23 -> in_field i f = true -> Z.testbit ms_read_mask i = true.
Proof.
  intros Hi. unfold in_field. intros H. apply andb_prop in H. destruct H as [A B]. apply Z.leb_le in A. apply Z.ltb_lt in B.
  pose proof (off_bounds f). assert (i = off f \/ i = off f + 1) as [-> | ->] by lia; destruct f; try (vm_compute; reflexivity); cbn in B; lia.
Qed.
Lemma read_mstatus_field h f : field_of f (read_mstatus h) = sf h f.
Proof.
  unfold read_mstatus, sf. apply field_bits_eq. intros i Hi Hf. destruct (h_xlen h =? 32).
  - unfold ms_as_uint32, ms_read_mask_32. rewrite Z.land_spec, !compress64_low by lia. rewrite (field_rmask f i Hi Hf). apply andb_true_r.
  - unfold ms_as_uint64. rewrite Z.land_spec, (field_rmask f i Hi Hf). apply andb_true_r.
Qed.
Lemma read_sstatus_field h f : field_of f (read_sstatus h) = sf h f.
Proof.
  unfold read_sstatus, sf. apply field_bits_eq. intros i Hi Hf. destruct (h_xlen h =? 32).
  - unfold sstatus_as_uint32, sstatus_as_uint64, ms_as_uint64. rewrite compress64_low by lia. rewrite Z.land_spec, (field_rmask f i Hi Hf). apply andb_true_r.
  - unfold sstatus_as_uint64, ms_as_uint64. rewrite Z.land_spec, (field_rmask f i Hi Hf). apply andb_true_r.
Qed.
Lemma read_mstatus_range h : hart_wf h -> 0 <= read_mstatus h < 2 ^ h_xlen h.
Proof.
  intros (Wx & _ & _ & Wv & _). unfold read_mstatus. destruct Wx as [-> | ->]; cbn [Z.eqb Pos.eqb].
  - apply (inw_land_l 32); [lia|apply compress64_range].
  - apply (inw_land_l 64); [lia|exact Wv].
Qed.
Lemma read_sstatus_range h : hart_wf h -> 0 <= read_sstatus h < 2 ^ h_xlen h.
Proof.
  intros (Wx & _ & _ & Wv & _). unfold read_sstatus. destruct Wx as [-> | ->]; cbn [Z.eqb Pos.eqb].
  - apply compress64_range.
  - apply (inw_land_l 64); [lia|exact Wv].
Qed.

(** ** Nested traps *)
Section NestInd.
  Variable P : nest -> Prop.
  Hypothesis H : forall q body, Forall P body -> P (Nest q body).
  Fixpoint nest_ind' (n : nest) : P n :=
    match n with
    | Nest q body => H q body ((fix go (l : list nest) : Forall P l :=
        match l with [] => Forall_nil _ | n :: r => Forall_cons _ (nest_ind' n) (go r) end) body)
    end.
End NestInd.

Definition scratch_field (f : sfield) : bool := match f with F_MPP | F_MPIE | F_SPP | F_SPIE => true | _ => false end.
(** [h'] is back in the context of [h]. *)
Definition same_ctx (h h' : hart) : Prop :=
  hart_wf h' /\ keeps h h' /\
  t_tvec (h_m h') = t_tvec (h_m h) /\ t_tvec (h_s h') = t_tvec (h_s h) /\
  (forall f, scratch_field f = false -> sf h' f = sf h f) /\
  (h_priv h = M_mode -> h_s h' = h_s h /\ sf h' F_SPP = sf h F_SPP /\ sf h' F_SPIE = sf h F_SPIE).

Lemma same_ctx_refl h : hart_wf h -> same_ctx h h.
Proof. intros W. unfold same_ctx, keeps. ssplit; auto. Qed.
Lemma same_ctx_trans a b c : same_ctx a b -> same_ctx b c -> same_ctx a c.
Proof.
  intros (_ & (K1 & K2 & K3 & K4 & K5) & T1 & T2 & F1 & M1) (W & (L1 & L2 & L3 & L4 & L5) & U1 & U2 & F2 & M2).
  unfold same_ctx, keeps. ssplit; try congruence; auto.
  - intros f Hf. rewrite F2, F1 by exact Hf. reflexivity.
  - intros P. destruct (M1 P) as (A & B & C). destruct M2 as (D & E & F); [congruence|]. ssplit; congruence.
Qed.

Lemma mideleg_r_eq h h' : h_mideleg h' = h_mideleg h -> mideleg_r h' = mideleg_r h.
Proof. unfold mideleg_r. congruence. Qed.

Definition nest_goal (n : nest) : Prop := forall h, hart_wf h -> legal_priv (h_priv h) -> sf h F_TSR = 0 ->
  nest_ok (mideleg_r h) (medeleg_r h) (sideleg_r h) (h_priv h) n ->
  exists h', run_nest n h = Some h' /\ same_ctx h h' /\
    match n with Nest q _ => h_pc h' = q_epc q mod 2 ^ h_xlen h end.

Lemma nest_body body : Forall nest_goal body -> forall h, hart_wf h -> legal_priv (h_priv h) -> sf h F_TSR = 0 ->
  (fix all (l : list nest) : Prop :=
     match l with [] => True | n :: r => nest_ok (mideleg_r h) (medeleg_r h) (sideleg_r h) (h_priv h) n /\ all r end) body ->
  exists h', (fix go (l : list nest) (h : hart) : option hart :=
                   match l with
                   | [] => Some h
                   | n :: r => match run_nest n h with Some h' => go r h' | None => None end
                   end) body h = Some h' /\ same_ctx h h'.
Proof.
  induction 1 as [|n r Hn Hr IH]; intros h W P T Ok; [exists h; split; [reflexivity|apply same_ctx_refl, W]|].
  destruct Ok as [On Or]. destruct (Hn h W P T On) as (h1 & E1 & C1 & _). pose proof C1 as (W1 & (K1 & K2 & K3 & K4 & K5) & _ & _ & F1 & _).
  destruct (IH h1) as (h2 & E2 & C2).
  - exact W1.
  - rewrite K2. exact P.
  - rewrite F1 by reflexivity. exact T.
  - unfold mideleg_r, medeleg_r, sideleg_r in *. rewrite K2, K3, K4, K5. exact Or.
  - exists h2. split; [rewrite E1; exact E2|]. eapply same_ctx_trans; eassumption.
Qed.

Lemma nest_main n : nest_goal n.
Proof.
  induction n as [q body IH] using nest_ind'. intros h W P T (Q & D & B).
  assert (not_user_delegated h q) as N by (intros A1 A2; apply D; assumption).
  destruct (trap_entry_main h q W Q N) as (h1 & E1 & Hp & _ & SR & _ & HM & HS).
  set (d := trap_dest (h_priv h) (mideleg_r h) (medeleg_r h) q) in *.
  pose proof (trap_wf _ _ _ W E1) as W1.
  destruct SR as (X1 & _ & _ & X2 & X3 & X4 & _).
  assert (legal_priv d) as Pd by (destruct (trap_dest_cases (h_priv h) (mideleg_r h) (medeleg_r h) q) as [E|E]; fold d in E; rewrite E; unfold legal_priv; auto).
  assert (sf h1 F_TSR = 0) as T1.
  { destruct (trap_dest_cases (h_priv h) (mideleg_r h) (medeleg_r h) q) as [E|E]; fold d in E;
      [destruct (HM E) as (_ & _ & F)|destruct (HS E) as (_ & _ & F)]; rewrite F; exact T. }
  assert (d = S_mode -> h_priv h = 0 \/ h_priv h = 1) as Plow0.
  { intros E. destruct P as [-> | [-> | PM]]; auto. exfalso. subst d. unfold trap_dest in E. destruct (q_int q) eqn:I.
    - destruct (Z.testbit (mideleg_r h) (q_code q)) eqn:MB; [|discriminate]. destruct (D eq_refl eq_refl) as [C _]. exact (C PM).
    - rewrite PM in E. discriminate. }
  destruct (nest_body body IH h1 W1) as (h2 & E2 & C2).
  { rewrite Hp. exact Pd. } { exact T1. }
  { unfold mideleg_r, medeleg_r, sideleg_r in *. rewrite Hp, X2, X3, X4. exact B. }
  cbn [run_nest]. rewrite E1, E2. unfold leave_handler. rewrite Hp.
  pose proof C2 as (W2 & (K1 & K2 & K3 & K4 & K5) & V1 & V2 & F2 & M2).
  destruct (trap_dest_cases (h_priv h) (mideleg_r h) (medeleg_r h) q) as [E|E]; fold d in E; rewrite E in *; cbn [M_mode S_mode Z.eqb Pos.eqb].
  - destruct (HM eq_refl) as (Rm & Rs & Fm). clear HM HS.
    cbn [hart_run hart_step].
    assert (inw (h_xlen h) (t_epc (h_m h1))) as I1. { rewrite <- X1. apply W1. }
    destruct (mepc_write_step h2 (t_epc (h_m h1)) W2) as (W3 & (A1 & A2 & A3 & A4 & A5) & Am & As & Af); [rewrite K1, X1; exact I1|].
    set (h3 := hart_csr_step h2 K_mepc (CsrWrite (t_epc (h_m h1)))) in *.
    destruct (mstatus_write_step h3 (read_mstatus h1) W3) as (W4 & (B1 & B2 & B3 & B4 & B5) & Bm & Bs & Bf).
    { rewrite A1, K1. apply read_mstatus_range, W1. }
    set (h4 := hart_csr_step h3 K_mstatus (CsrWrite (read_mstatus h1))) in *.
    destruct (mret_effect_main h4 0 W4) as (h5 & E5 & R1 & R2 & _ & R3 & R4 & R5 & R6 & _); [congruence|].
    rewrite E5. exists h5. split; [reflexivity|].
    assert (forall f, sf h4 f = sf h1 f) as S4 by (intros f; rewrite Bf; apply read_mstatus_field).
    destruct R4 as (Y1 & _ & _ & Y2 & Y3 & Y4 & _).
    split; [unfold same_ctx, keeps; ssplit|].
    + assert (mret h4 0 = Some h5) as E5' by exact E5. eapply mret_wf; eassumption.
    + congruence. + rewrite R1, S4, Fm. reflexivity. + congruence. + congruence. + congruence.
    + rewrite R5, Bm, Am. cbn [up_epc t_tvec]. rewrite V1, Rm. reflexivity.
    + rewrite R6, Bs, As. rewrite V2, Rs. reflexivity.
    + intros f Hf. rewrite R3. destruct f; cbn [status_after_mret]; try discriminate Hf; rewrite S4, Fm; reflexivity.
    + intros _. destruct M2 as (Q1 & Q2 & Q3); [congruence|]. rewrite R6, Bs, As, Q1, Rs, !R3. cbn [status_after_mret]. rewrite !S4, !Fm. auto.
    + rewrite R2, Bm, Am. cbn [up_epc t_epc]. rewrite Rm. reflexivity.
  - destruct (HS eq_refl) as (Rs & Rm & Fs). clear HM HS.
    assert (h_priv h = 0 \/ h_priv h = 1) as Plow by (apply Plow0; reflexivity).
    cbn [hart_run hart_step].
    assert (inw (h_xlen h) (t_epc (h_s h1))) as I1. { rewrite <- X1. apply W1. }
    destruct (sepc_write_step h2 (t_epc (h_s h1)) W2) as (W3 & (A1 & A2 & A3 & A4 & A5) & As & Am & Af); [rewrite K1, X1; exact I1|].
    set (h3 := hart_csr_step h2 K_sepc (CsrWrite (t_epc (h_s h1)))) in *.
    destruct (sstatus_write_step h3 (read_sstatus h1) W3) as (W4 & (B1 & B2 & B3 & B4 & B5) & Bm & Bs & Bf).
    { rewrite A1, K1. apply read_sstatus_range, W1. }
    set (h4 := hart_csr_step h3 K_sstatus (CsrWrite (read_sstatus h1))) in *.
    assert (h_priv h4 = 1) as P4 by (unfold S_mode in *; congruence).
    assert (forall f, f <> F_MPP -> f <> F_MPIE -> sf h4 f = sf h1 f) as S4.
    { intros f N1 N2. rewrite Bf. destruct (s_writable f) eqn:SW; [apply read_sstatus_field|]. rewrite Af. apply F2. destruct f; try reflexivity; try discriminate SW; contradiction. }
    assert (sret_illegal h4 = false) as L4.
    { unfold sret_illegal. rewrite P4, ms_get_field. fold (sf h4 F_TSR). rewrite S4 by discriminate. rewrite T1.
      destruct (h_xlen h4 =? 32); reflexivity. }
    destruct (sret_effect_main h4 0 W4 L4) as (h5 & E5 & R1 & R2 & _ & R3 & R4 & R5 & R6 & _).
    rewrite E5. exists h5. split; [reflexivity|].
    destruct R4 as (Y1 & _ & _ & Y2 & Y3 & Y4 & _).
    split; [unfold same_ctx, keeps; ssplit|].
    + eapply sret_wf; eassumption.
    + congruence. + rewrite R1, S4, Fs by discriminate. cbn [status_after_trap_s]. destruct Plow as [-> | ->]; reflexivity.
    + congruence. + congruence. + congruence.
    + rewrite R5, Bm, Am, V1, Rm. reflexivity.
    + rewrite R6, Bs, As. cbn [up_epc t_tvec]. rewrite V2, Rs. reflexivity.
    + intros f Hf. rewrite R3. destruct f; cbn [status_after_sret]; try discriminate Hf; rewrite S4, Fs by discriminate; reflexivity.
    + intros PM. unfold M_mode in PM. lia.
    + rewrite R2, Bs, As. cbn [up_epc t_epc]. rewrite Rs. reflexivity.
Qed.

(** Directly after: trap then return, without saving anything. *)
Lemma mret_after_trap_main h q : hart_wf h -> req_ok q -> not_user_delegated h q ->
  trap_dest (h_priv h) (mideleg_r h) (medeleg_r h) q = M_mode ->
  exists h1 h2, trap h q = Some h1 /\ mret h1 (h_pc h1) = Some h2 /\
    h_priv h2 = h_priv h /\ h_pc h2 = q_epc q mod 2 ^ h_xlen h /\ h_s h2 = h_s h /\
    (forall f, f <> F_MPP -> f <> F_MPIE -> sf h2 f = sf h f).
Proof.
  intros W Q N E. destruct (trap_entry_main h q W Q N) as (h1 & E1 & Hp & _ & _ & _ & HM & _).
  destruct (HM E) as (Rm & Rs & Fm). rewrite E in Hp. pose proof (trap_wf _ _ _ W E1) as W1.
  destruct (mret_effect_main h1 (h_pc h1) W1 Hp) as (h2 & E2 & R1 & R2 & _ & R3 & _ & R5 & R6 & _).
  exists h1, h2. ssplit; auto.
  - rewrite R1, Fm. reflexivity.
  - rewrite R2, Rm. reflexivity.
  - congruence.
  - intros f N1 N2. rewrite R3. destruct f; cbn [status_after_mret]; try contradiction; rewrite Fm; reflexivity.
Qed.
Lemma sret_after_trap_main h q : hart_wf h -> req_ok q -> not_user_delegated h q -> (h_priv h = U_mode \/ h_priv h = S_mode) ->
  sf h F_TSR = 0 ->
  trap_dest (h_priv h) (mideleg_r h) (medeleg_r h) q = S_mode ->
  exists h1 h2, trap h q = Some h1 /\ sret h1 (h_pc h1) = Some h2 /\
    h_priv h2 = h_priv h /\ h_pc h2 = q_epc q mod 2 ^ h_xlen h /\ h_m h2 = h_m h /\
    (forall f, f <> F_SPP -> f <> F_SPIE -> sf h2 f = sf h f).
Proof.
  intros W Q N P T E. destruct (trap_entry_main h q W Q N) as (h1 & E1 & Hp & _ & _ & _ & _ & HS).
  destruct (HS E) as (Rs & Rm & Fs). rewrite E in Hp. pose proof (trap_wf _ _ _ W E1) as W1.
  assert (sret_illegal h1 = false) as L1.
  { unfold sret_illegal. rewrite Hp, ms_get_field. fold (sf h1 F_TSR). rewrite Fs. cbn [status_after_trap_s]. rewrite T. destruct (h_xlen h1 =? 32); reflexivity. }
  destruct (sret_effect_main h1 (h_pc h1) W1 L1) as (h2 & E2 & R1 & R2 & _ & R3 & _ & R5 & R6 & _).
  exists h1, h2. ssplit; auto.
  - rewrite R1, Fs. cbn [status_after_trap_s]. destruct P as [-> | ->]; reflexivity.
  - rewrite R2, Rs. reflexivity.
  - congruence.
  - intros f N1 N2. rewrite R3. destruct f; cbn [status_after_sret]; try contradiction; rewrite Fs; reflexivity.
Qed.

(** ** Taking an interrupt right after a check *)
Lemma eligible_dest h i : eligible (view h) i = true -> legal_priv (h_priv h) ->
  let q := {| q_int := true; q_tval := 0; q_code := i; q_epc := 0 |} in
  not_user_delegated h q /\ h_priv h <= trap_dest (h_priv h) (mideleg_r h) (medeleg_r h) q.
Proof.
  intros E P q. unfold eligible in E. apply orb_prop in E. unfold not_user_delegated, trap_dest; cbn [q q_int q_code].
  destruct E as [E|E].
  - unfold m_eligible in E. repeat (apply andb_prop in E; destruct E as [E ?]). unfold irq_level_m in *. cbn [view iv_deleg] in *.
    destruct (Z.testbit (mideleg_r h) i); [discriminate|]. split; [discriminate|].
    unfold legal_priv, M_mode, U_mode, S_mode in *. lia.
  - unfold s_eligible in E. repeat (apply andb_prop in E; destruct E as [E ?]). unfold irq_level_s, s_on in *. cbn [view iv_deleg iv_udeleg iv_priv] in *.
    match goal with H : _ && negb _ = true |- _ => apply andb_prop in H; destruct H as [Hd Hu] end.
    rewrite Hd. apply negb_true_iff in Hu. split; [intros; exact Hu|].
    match goal with H : _ || _ = true |- _ => apply orb_prop in H; destruct H as [H|H] end.
    + apply Z.ltb_lt in H. unfold S_mode in *. lia.
    + apply andb_prop in H. destruct H as [H _]. apply Z.eqb_eq in H. unfold S_mode in *. lia.
Qed.

Lemma take_after_check_main h epc : hart_wf h -> legal_priv (h_priv h) -> h_avail h = false -> 0 <= epc < 2 ^ 64 ->
  exists h', hart_run h [HCheck; HTake epc] = Some h' /\
  ((exists i, best_irq (view h) i /\
      h_taken h' = h_taken h + 1 /\ h_priv h <= h_priv h' /\
      regs_of (h_priv h') h' = trapregs_after (h_xlen h) {| q_int := true; q_tval := 0; q_code := i; q_epc := epc |} (regs_of (h_priv h') h)) \/
   ((forall i, eligible (view h) i = false) /\ h' = h)).
Proof.
  intros W P A He. cbn [hart_run hart_step]. pose proof (select_spec h P) as S.
  unfold check_for_interrupt. destruct (select_interrupt h) as [c|] eqn:SE.
  - unfold take_interrupt. cbn [set_offer h_avail negb h_code].
    set (h1 := set_offer h true c). set (q := {| q_int := true; q_tval := 0; q_code := c; q_epc := epc |}).
    assert (is_irq c = true) as Ic by (eapply select_irq; eassumption).
    assert (hart_wf h1) as W1 by (apply set_offer_wf; auto).
    assert (req_ok q) as Q by (apply is_irq_range in Ic; unfold req_ok; cbn; lia).
    destruct (eligible_dest h c (proj1 S) P) as [N D].
    destruct (trap_entry_main h1 q W1 Q) as (h2 & E2 & Hp & _ & SR & _ & HM & HS); [exact N|].
    rewrite E2. eexists. split; [reflexivity|]. left. exists c. split; [exact S|].
    cbn [set_counts set_offer h_taken h_priv]. destruct SR as (_ & _ & _ & _ & _ & _ & Tk & _). rewrite Tk.
    split; [reflexivity|]. rewrite Hp. split; [exact D|].
    destruct (trap_dest_cases (h_priv h1) (mideleg_r h1) (medeleg_r h1) q) as [E|E]; rewrite E.
    + unfold regs_of. cbn [M_mode Z.eqb Pos.eqb set_counts set_offer h_m]. apply (HM E).
    + unfold regs_of. cbn [M_mode S_mode Z.eqb Pos.eqb set_counts set_offer h_s]. apply (HS E).
  - unfold take_interrupt. rewrite A. cbn [negb]. exists h. split; [reflexivity|]. right. split; [exact S|reflexivity].
Qed.

(** ** Handler depth *)
(** Number of operations of a run satisfying [p] in the state they start from. *)
Fixpoint count_run (p : hart -> hart_op -> bool) (h : hart) (ops : list hart_op) : Z :=
  match ops with
  | [] => 0
  | o :: r => (if p h o then 1 else 0) +
              match hart_step h o with Some h' => count_run p h' r | None => 0 end
  end.
Definition takes (h : hart) (o : hart_op) : bool := match o with HTake _ => h_avail h | _ => false end.
Definition returns (h : hart) (o : hart_op) : bool :=
  match o with HMret _ => h_priv h =? M_mode | HSret _ => negb (sret_illegal h) | _ => false end.

Lemma some_eq (A : Type) (x y : A) : Some x = Some y -> x = y.
Proof. congruence. Qed.
Arguments some_eq {A x y} _.
Lemma check_if_counts b h : h_taken (check_if b h) = h_taken h /\ h_returns (check_if b h) = h_returns h.
Proof. destruct (check_if_frame b h) as (a & c & ->). split; reflexivity. Qed.
Lemma trap_counts h q h' : trap h q = Some h' -> h_taken h' = h_taken h /\ h_returns h' = h_returns h.
Proof.
  intros E. destruct (dest_mode h q) as [d|] eqn:D; [|unfold trap in E; rewrite D in E; discriminate].
  destruct (dest_mode_range _ _ _ D) as [-> | [-> | ->]].
  - unfold trap in E. rewrite D in E. inversion E; auto.
  - rewrite (trap_to_s h q D) in E. apply some_eq in E. rewrite <- E. exact (check_if_counts _ _).
  - rewrite (trap_to_m h q D) in E. apply some_eq in E. rewrite <- E. exact (check_if_counts _ _).
Qed.
Lemma step_counts h o h' : hart_step h o = Some h' ->
  h_taken h' = h_taken h + (if takes h o then 1 else 0) /\ h_returns h' = h_returns h + (if returns h o then 1 else 0).
Proof.
  intros E. rewrite <- (Z.add_0_r (h_taken h)), <- (Z.add_0_r (h_returns h)).
  destruct o as [tv code epc|epc|a|a|k o|i v|v| |p]; cbn [hart_step] in E; cbn [takes returns]; rewrite ?Z.add_0_r.
  - eapply trap_counts; eassumption.
  - unfold take_interrupt in E. destruct (h_avail h); cbn [negb] in E; [|inversion E; subst; lia].
    destruct (trap h _) eqn:T; [|discriminate]. inversion E. cbn [set_counts set_offer h_taken h_returns].
    apply trap_counts in T. lia.
  - unfold mret in E. unfold M_mode. destruct (h_priv h =? 3); cbn [negb] in E.
    + inversion E. unfold put_status. match goal with |- context [check_if ?b ?x] => destruct (check_if_counts b x) as [-> ->] end. cbn; lia.
    + apply trap_counts in E. lia.
  - unfold sret in E. destruct (sret_illegal h); cbn [negb].
    + apply trap_counts in E. lia.
    + inversion E. unfold put_status. match goal with |- context [check_if ?b ?x] => destruct (check_if_counts b x) as [-> ->] end. cbn; lia.
  - inversion E. destruct k; cbn [hart_csr_step]; try (cbn; lia); unfold put_status, put_ip, put_ie;
      match goal with |- context [check_if ?b ?x] => destruct (check_if_counts b x) as [-> ->] end; cbn; lia.
  - inversion E. unfold put_ip. match goal with |- context [check_if ?b ?x] => destruct (check_if_counts b x) as [-> ->] end; cbn; lia.
  - inversion E. unfold set_ext_line, put_ip. match goal with |- context [check_if ?b ?x] => destruct (check_if_counts b x) as [-> ->] end; cbn; lia.
  - inversion E. unfold check_for_interrupt. destruct (select_interrupt h); cbn; lia.
  - inversion E. cbn; lia.
Qed.
Lemma run_counts ops h h' : hart_run h ops = Some h' ->
  h_taken h' = h_taken h + count_run takes h ops /\ h_returns h' = h_returns h + count_run returns h ops.
Proof.
  revert h; induction ops as [|o ops IH]; intros h E; cbn [hart_run count_run] in *; [inversion E; subst; lia|].
  destruct (hart_step h o) as [h1|] eqn:S; [|discriminate].
  apply step_counts in S. apply IH in E. lia.
Qed.
Lemma depth_main w pc ops h' : hart_run (hart_init w pc) ops = Some h' ->
  handler_depth h' = sgn 32 (wrap 32 (count_run takes (hart_init w pc) ops - count_run returns (hart_init w pc) ops)).
Proof. intros E. apply run_counts in E. cbn [hart_init h_taken h_returns] in E. unfold handler_depth. do 2 f_equal. lia. Qed.

(** ** Nothing is lost after an update that checks *)
Definition offered (h : hart) : Prop :=
  forall i, eligible (view h) i = true -> h_avail h = true /\ best_irq (view h) (h_code h).
Lemma view_offer h a c : view (set_offer h a c) = view h.
Proof. reflexivity. Qed.
Lemma check_offered h : legal_priv (h_priv h) -> offered (check_for_interrupt h).
Proof.
  intros P i E. unfold check_for_interrupt in *. pose proof (select_spec h P) as S.
  destruct (select_interrupt h) as [c|]; [split; [reflexivity|exact S]|]. rewrite S in E. discriminate.
Qed.
Lemma line_offered h i v h' : hart_wf h -> legal_priv (h_priv h) -> i <> 9 -> hart_op_ok (h_xlen h) (HLine i v) = true ->
  hart_step h (HLine i v) = Some h' -> offered h'.
Proof.
  intros W P N9 Ok E. cbn [hart_step] in E. apply some_eq in E. rewrite <- E. clear E h'. unfold put_ip, check_if.
  destruct (snd (mip_setter i v (h_ip h))) eqn:B; [apply check_offered; exact P|].
  intros j Ej. exfalso. unfold mip_setter, mip_set in B. cbn [snd] in B. apply negb_false_iff, Z.eqb_eq in B.
  assert (Z.testbit (mip_as_uint 32 (fst (mip_setter i v (h_ip h)))) j = true /\ is_irq j = true) as [Tj Ij].
  { unfold eligible in Ej. apply orb_prop in Ej. destruct Ej as [Ej|Ej]; unfold m_eligible, s_eligible in Ej; repeat (apply andb_prop in Ej; destruct Ej as [Ej ?]); cbn [view iv_pend h_ip] in *; split; assumption. }
  cbn [hart_op_ok] in Ok. apply andb_prop in Ok. destruct Ok as [Ii Vi].
  assert (ip_wf (h_ip h)) as Wi by apply W.
  unfold mip_as_uint, mip_setter, mip_set, mip_get in Tj. cbn [fst ip_value ip_ext] in Tj.
  apply is_irq_range in Ij. apply is_irq_range in Ii.
  fold (mip_get 64 (h_ip h)) in Tj. rewrite B in Tj.
  rewrite Z.land_spec in Tj. apply andb_prop in Tj. destruct Tj as [Tj _]. rewrite wrap_testbit in Tj by lia.
  apply andb_prop in Tj. destruct Tj as [_ Tj]. replace (wrap 64 0) with 0 in Tj by reflexivity. rewrite Z.lor_0_l in Tj.
  assert (Z.testbit (Z.lor (Z.land (mip_get 64 (h_ip h)) (wnot 64 (Z.shiftl 1 i))) (Z.shiftl (Z.land v 1) i)) j = false) as F by (rewrite B; apply Z.bits_0).
  rewrite Z.lor_spec, Z.land_spec in F. apply orb_false_elim in F. destruct F as [F _].
  unfold mip_get in F. rewrite wrap_testbit, Z.lor_spec, Tj, orb_true_r in F by lia.
  replace (j <? 64) with true in F by (symmetry; apply Z.ltb_lt; lia). cbn [andb] in F.
  assert (j = 9) as ->.
  { destruct Wi as (_ & _ & [X|X]); rewrite X in Tj; [rewrite Z.bits_0 in Tj; discriminate|]. rewrite Z.pow2_bits_eqb in Tj by lia. apply Z.eqb_eq in Tj. lia. }
  rewrite wnot_testbit in F by lia. cbn [Z.ltb Z.compare Pos.compare Pos.compare_cont andb] in F. apply negb_false_iff in F. rewrite Z.shiftl_spec in F by lia.
  destruct (Z.eq_dec (9 - i) 0); [lia|]. change 1 with (2 ^ 0) in F. rewrite Z.pow2_bits_false in F by lia. discriminate.
Qed.
Lemma enable_offered h k o h' : legal_priv (h_priv h) -> k = K_mie \/ k = K_sie ->
  hart_step h (HCsr k o) = Some h' -> offered h'.
Proof.
  intros P Hk E. cbn [hart_step] in E. apply some_eq in E. rewrite <- E. clear E h'.
  assert (forall e, (snd e = true \/ fst e = 0) -> offered (put_ie h e)) as G.
  { intros [e b] H. unfold put_ie, check_if. cbn [snd fst] in *. destruct b; [apply check_offered; exact P|].
    destruct H as [|H]; [discriminate|]. subst e. intros j Ej. exfalso.
    unfold eligible in Ej. apply orb_prop in Ej. destruct Ej as [Ej|Ej]; unfold m_eligible, s_eligible in Ej; repeat (apply andb_prop in Ej; destruct Ej as [Ej ?]); cbn [view iv_enab h_ie] in *;
    match goal with H : Z.testbit (mie_as_uint 32 0) j = true |- _ => change (mie_as_uint 32 0) with 0 in H; rewrite Z.bits_0 in H; discriminate end. }
  assert (forall v e, snd (mie_set v e) = true \/ fst (mie_set v e) = 0) as M.
  { intros v e. unfold mie_set. cbn [fst snd]. destruct (Z.eqb_spec v 0); [right; subst; reflexivity|left; reflexivity]. }
  destruct Hk as [-> | ->]; cbn [hart_csr_step]; apply G; destruct o; apply M.
Qed.
Lemma trap_legal h q h' : legal_priv (h_priv h) -> trap h q = Some h' -> legal_priv (h_priv h').
Proof.
  intros P E. destruct (dest_mode h q) as [d|] eqn:D; [|unfold trap in E; rewrite D in E; discriminate].
  destruct (dest_mode_range _ _ _ D) as [-> | [-> | ->]].
  - unfold trap in E. rewrite D in E. apply some_eq in E. rewrite <- E. exact P.
  - rewrite (trap_to_s h q D) in E. apply some_eq in E. rewrite <- E. destruct (check_if_frame (snd (ms_submit (stage_trap 1 (h_priv h) (h_status h)))) (trap_result h q 1 (trap_ops_s h))) as (a & c & ->). unfold legal_priv, trap_result; cbn. auto.
  - rewrite (trap_to_m h q D) in E. apply some_eq in E. rewrite <- E. destruct (check_if_frame (snd (ms_submit (stage_trap 3 (h_priv h) (h_status h)))) (trap_result h q 3 (trap_ops_m h))) as (a & c & ->). unfold legal_priv, trap_result; cbn. auto.
Qed.
Lemma legal_mode_main h o h' : hart_wf h -> legal_priv (h_priv h) -> sf h F_MPP <> 2 ->
  hart_op_ok (h_xlen h) o = true -> (forall p, o = HPriv p -> p <> 2) -> hart_step h o = Some h' -> legal_priv (h_priv h').
Proof.
  intros W P M Ok NP E. destruct o as [tv code epc|epc|a|a|k o|i v|v| |p]; cbn [hart_step] in E.
  - eapply trap_legal; eassumption.
  - unfold take_interrupt in E. destruct (h_avail h); cbn [negb] in E; [|apply some_eq in E; rewrite <- E; exact P].
    destruct (trap h _) eqn:T; [|discriminate]. apply some_eq in E. rewrite <- E. cbn [set_counts set_offer h_priv]. eapply trap_legal; eassumption.
  - destruct (Z.eq_dec (h_priv h) M_mode) as [PM|PM].
    + destruct (mret_effect_main h a W PM) as (h1 & E1 & R & _). rewrite E1 in E. apply some_eq in E. rewrite <- E, R.
      pose proof (field_range F_MPP (ms_value (h_status h))) as FR. fold (sf h F_MPP) in FR. change (2 ^ width F_MPP) with 4 in FR. unfold legal_priv, U_mode, S_mode, M_mode. lia.
    + unfold mret in E. apply Z.eqb_neq in PM. unfold M_mode in PM. rewrite PM in E. cbn [negb] in E. eapply trap_legal; eassumption.
  - destruct (sret_illegal h) eqn:SI.
    + unfold sret in E. rewrite SI in E. eapply trap_legal; eassumption.
    + destruct (sret_effect_main h a W SI) as (h1 & E1 & R & _). rewrite E1 in E. apply some_eq in E. rewrite <- E, R.
      pose proof (field_range F_SPP (ms_value (h_status h))) as FR. fold (sf h F_SPP) in FR. change (2 ^ width F_SPP) with 2 in FR. unfold legal_priv, U_mode, S_mode, M_mode. lia.
  - apply some_eq in E. rewrite <- E. destruct k; cbn [hart_csr_step]; try exact P; unfold put_status, put_ip, put_ie;
      match goal with |- context [check_if ?b ?x] => destruct (check_if_frame b x) as (? & ? & ->) end; exact P.
  - apply some_eq in E. rewrite <- E. unfold put_ip. match goal with |- context [check_if ?b ?x] => destruct (check_if_frame b x) as (? & ? & ->) end; exact P.
  - apply some_eq in E. rewrite <- E. unfold set_ext_line, put_ip. match goal with |- context [check_if ?b ?x] => destruct (check_if_frame b x) as (? & ? & ->) end; exact P.
  - apply some_eq in E. rewrite <- E. unfold check_for_interrupt. destruct (select_interrupt h); exact P.
  - apply some_eq in E. rewrite <- E. cbn [set_priv h_priv]. cbn [hart_op_ok] in Ok. specialize (NP p eq_refl). unfold legal_priv, U_mode, S_mode, M_mode. lia.
Qed.
