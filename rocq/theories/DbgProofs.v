(** Breakpoints and memory (C51). *)
From Coq Require Import ZArith Bool List Lia.
From Verif Require Import Bits Memory DbgSpec DbgModel.
Import ListNotations.
Local Open Scope Z_scope.

Lemma load_mod4 m a n : load_le m a (S n) mod 4 = m a mod 4.
Proof. cbn [load_le]. replace (m a + 256 * load_le m (a + 1) n) with (m a + 64 * load_le m (a + 1) n * 4) by lia. apply Z.mod_add; lia. Qed.
Lemma load_mod32 m a n : load_le m a (S n) mod 32 = m a mod 32.
Proof. cbn [load_le]. replace (m a + 256 * load_le m (a + 1) n) with (m a + 8 * load_le m (a + 1) n * 32) by lia. apply Z.mod_add; lia. Qed.
Lemma fetch_mod4 m a : fetch m a mod 4 = m a mod 4.
Proof. unfold fetch. destruct (_ =? _); apply load_mod4. Qed.
Lemma fetch_mod32 m a : fetch m a mod 32 = m a mod 32.
Proof. unfold fetch. destruct (_ =? _); apply load_mod32. Qed.
Lemma known_lenb_iff w : known_lenb w = true <-> known_len w.
Proof.
  unfold known_lenb, known_len. destruct (Z.eqb_spec (w mod 4) 3), (Z.eqb_spec (w mod 32) 31); cbn; intuition congruence.
Qed.
Lemma inst_len_cases (m : mem) a : inst_len (m a) = 2 \/ inst_len (m a) = 4.
Proof. unfold inst_len. destruct (_ =? _); auto. Qed.
Lemma get_size_load m a : get_size (load_le m a 4) = if known_lenb (fetch m a) then inst_len (m a) else 0.
Proof.
  unfold get_size, known_lenb, inst_len. change 3 with (Z.ones 2) at 1. change 0x1f with (Z.ones 5) at 1.
  rewrite !Z.land_ones by lia. change (2 ^ 2) with 4. change (2 ^ 5) with 32.
  rewrite fetch_mod4, fetch_mod32, load_mod4, load_mod32. change (Z.ones 2) with 3. change 0x1f with 31.
  destruct (_ =? _), (_ =? _); reflexivity.
Qed.
Lemma word_of_load m a : byte_mem m ->
  (if inst_len (m a) =? 2 then Z.land (load_le m a 4) 0xffff else load_le m a 4) = fetch m a.
Proof.
  intros B. unfold inst_len, fetch. destruct (m a mod 4 =? 3); cbn [Z.eqb Pos.eqb]; [reflexivity|].
  change 0xffff with (Z.ones 16). rewrite Z.land_ones by lia.
  cbn [load_le]. pose proof (B a). pose proof (B (a + 1)).
  symmetry. change (2 ^ 16) with 65536.
  apply (Z.mod_unique _ _ (m (a + 1 + 1) + 256 * (m (a + 1 + 1 + 1) + 256 * 0))); lia.
Qed.
Lemma get_size_cases w : get_size w = 2 \/ get_size w = 4 \/ get_size w = 0.
Proof. unfold get_size. destruct (negb _); auto. destruct (negb _); auto. Qed.

(** The saved instruction is written back over its bytes. *)
Lemma restore_at mm m a x : byte_mem m -> inst_bytes m a x ->
  (if inst_len (m a) =? 2 then store_le mm a 2 (Z.land (fetch m a) 0xffff) else store_le mm a 4 (fetch m a)) x = m x.
Proof.
  intros B H. unfold inst_bytes in H. unfold fetch. unfold inst_len in *. destruct (Z.eqb_spec (m a mod 4) 3) as [e|e]; cbn [Z.eqb Pos.eqb].
  - rewrite store_le_same by (cbn; lia). pose proof (store_load_back m a 4 x B) as K. rewrite store_le_same in K by (cbn; lia). exact K.
  - rewrite store_le_same by (cbn; lia).
    assert (Z.land (load_le m a 2) 0xffff = load_le m a 2) as ->.
    { change 0xffff with (Z.ones 16). rewrite Z.land_ones by lia. apply Z.mod_small. apply (load_le_range m a 2 B). }
    pose proof (store_load_back m a 2 x B) as K. rewrite store_le_same in K by (cbn; lia). exact K.
Qed.
Lemma sized_other mm m a v1 v2 x : ~ inst_bytes m a x ->
  (if inst_len (m a) =? 2 then store_le mm a 2 v1 else store_le mm a 4 v2) x = mm x.
Proof. intros H. unfold inst_bytes, inst_len in *. destruct (m a mod 4 =? 3); cbn [Z.eqb Pos.eqb]; apply store_le_other; cbn; lia. Qed.
Lemma plant_at mm m a x : inst_bytes m a x ->
  (if inst_len (m a) =? 2 then store_le mm a 2 0x9002 else store_le mm a 4 0x00100073) x = ebreak_byte m a x.
Proof.
  intros H. unfold ebreak_byte. unfold inst_bytes, inst_len in *. destruct (m a mod 4 =? 3); cbn [Z.eqb Pos.eqb]; rewrite store_le_same by (cbn; lia).
  - assert (x = a \/ x = a + 1 \/ x = a + 2 \/ x = a + 3) as [-> | [-> | [-> | ->]]] by lia;
      rewrite ?Z.sub_diag, ?Z.add_simpl_l; reflexivity.
  - assert (x = a \/ x = a + 1) as [-> | ->] by lia; rewrite ?Z.sub_diag, ?Z.add_simpl_l; reflexivity.
Qed.
Lemma four_sized {A} (m : mem) a (p q r : A) :
  (if inst_len (m a) =? 2 then p else if inst_len (m a) =? 4 then q else r) = if inst_len (m a) =? 2 then p else q.
Proof. destruct (inst_len_cases m a) as [-> | ->]; reflexivity. Qed.

(** ** The invariant *)
Record dinv (v : view) (d : dbg) : Prop := {
  di_byte : byte_mem (v_mem v);
  di_mbyte : byte_mem (am_mem (d_am d));
  di_act : map fst (d_act d) = v_act v;
  di_bp : forall p, In p (d_act d) -> snd p = true;
  di_nodup : NoDup (v_act v);
  di_ever : incl (v_act v) (v_ever v);
  di_known : forall a, In a (v_ever v) -> known_lenb (fetch (v_mem v) a) = true;
  di_map : forall a, am_map (d_am d) a = if inb a (v_ever v) then Some (fetch (v_mem v) a, inst_len (v_mem v a)) else None;
  di_apart : forall a b x, In a (v_act v) -> In b (v_act v) -> inst_bytes (v_mem v) a x -> inst_bytes (v_mem v) b x -> a = b;
  di_on : forall a x, In a (v_act v) -> inst_bytes (v_mem v) a x -> am_mem (d_am d) x = ebreak_byte (v_mem v) a x;
  di_off : forall x, (forall a, In a (v_act v) -> ~ inst_bytes (v_mem v) a x) -> am_mem (d_am d) x = v_mem v x }.

Lemma inb_in a l : inb a l = true <-> In a l.
Proof.
  unfold inb. rewrite existsb_exists. split; [intros (x & H & E); apply Z.eqb_eq in E; subst; assumption|].
  intros H; exists a; split; [assumption|apply Z.eqb_refl].
Qed.
Lemma inb_false a l : inb a l = false <-> ~ In a l.
Proof. rewrite <- inb_in. destruct (inb a l); intuition congruence. Qed.
Lemma active_inb l a : active l a = inb a (map fst l).
Proof. unfold active, inb. induction l as [|p l IH]; [reflexivity|]. cbn. rewrite IH. reflexivity. Qed.
Lemma inst_dec m a x : {inst_bytes m a x} + {~ inst_bytes m a x}.
Proof. unfold inst_bytes. destruct (Z_le_dec a x), (Z_lt_dec x (a + inst_len (m a))); (left; lia) || (right; lia). Qed.

Lemma dinv_init m : byte_mem m -> dinv (view_init m) (dbg_init m).
Proof.
  intros B. split; cbn; try assumption; try tauto; try (intros; contradiction); try constructor; try reflexivity. intros ? [].
Qed.

(** A place no breakpoint overlaps reads as the user's memory. *)
Lemma dinv_clear_byte v d a x : dinv v d ->
  (forall b y, In b (v_act v) -> inst_bytes (v_mem v) a y -> inst_bytes (v_mem v) b y -> False) ->
  inst_bytes (v_mem v) a x -> am_mem (d_am d) x = v_mem v x.
Proof. intros I D H. apply (di_off v d I). intros b Hb Hx. exact (D b x Hb H Hx). Qed.
Lemma fetch_ext m1 m2 a : (forall x, inst_bytes m2 a x -> m1 x = m2 x) -> fetch m1 a = fetch m2 a /\ inst_len (m1 a) = inst_len (m2 a).
Proof.
  intros H. assert (m1 a = m2 a) as E by (apply H; unfold inst_bytes; destruct (inst_len_cases m2 a) as [-> | ->]; lia).
  unfold fetch. rewrite E. split; [|reflexivity]. unfold inst_bytes, inst_len in H.
  destruct (m2 a mod 4 =? 3); apply load_le_ext; intros; apply H; lia.
Qed.
Lemma known_ext m1 m2 a : m1 a = m2 a -> known_lenb (fetch m1 a) = known_lenb (fetch m2 a).
Proof. intros E. unfold known_lenb. rewrite !fetch_mod4, !fetch_mod32, E. reflexivity. Qed.

Lemma write_original_ok v d a : dinv v d -> In a (v_ever v) ->
  let am := fst (write_original (d_am d) a) in
  am_map am = am_map (d_am d) /\ byte_mem (am_mem am) /\
  (forall x, inst_bytes (v_mem v) a x -> am_mem am x = v_mem v x) /\
  (forall x, ~ inst_bytes (v_mem v) a x -> am_mem am x = am_mem (d_am d) x).
Proof.
  intros I Ha. unfold write_original. rewrite (di_map v d I). apply inb_in in Ha. rewrite Ha. cbn [fst am_map am_mem].
  rewrite four_sized. split; [reflexivity|]. split; [destruct (_ =? _); apply byte_mem_store, (di_mbyte v d I)|]. split; intros x Hx.
  - apply restore_at; [apply (di_byte v d I)|assumption].
  - apply sized_other; assumption.
Qed.
Lemma plant_ok v am a :
  (forall x, inst_bytes (v_mem v) a x -> am_mem (plant am a (inst_len (v_mem v a))) x = ebreak_byte (v_mem v) a x) /\
  (forall x, ~ inst_bytes (v_mem v) a x -> am_mem (plant am a (inst_len (v_mem v a))) x = am_mem am x) /\
  am_map (plant am a (inst_len (v_mem v a))) = am_map am /\
  (byte_mem (am_mem am) -> byte_mem (am_mem (plant am a (inst_len (v_mem v a))))).
Proof.
  unfold plant. cbn [am_mem am_map]. rewrite four_sized. split; [|split; [|split; [reflexivity|]]].
  - intros x Hx. apply plant_at; assumption.
  - intros x Hx. apply sized_other; assumption.
  - intros B. destruct (_ =? _); apply byte_mem_store, B.
Qed.

Lemma set_ok v d a : dinv v d -> dbg_good v (SetBp a) -> dinv (view_step v (SetBp a)) (dbg_step d (SetBp a)).
Proof.
  intros I G. cbn [dbg_good view_step dbg_step] in *. unfold set_point. rewrite active_inb, (di_act v d I).
  destruct (inb a (v_act v)) eqn:A; [exact I|]. cbn [orb]. apply inb_false in A.
  assert (forall b y, In b (v_act v) -> inst_bytes (v_mem v) a y -> inst_bytes (v_mem v) b y -> False) as D.
  { intros b y Hb. apply G; [assumption|]. intros ->; contradiction. }
  assert (forall x, inst_bytes (v_mem v) a x -> am_mem (d_am d) x = v_mem v x) as EA.
  { intros x. apply (dinv_clear_byte v d a x I D). }
  assert (am_mem (d_am d) a = v_mem v a) as E.
  { apply EA. unfold inst_bytes. destruct (inst_len_cases (v_mem v) a) as [-> | ->]; lia. }
  assert (known_lenb (fetch (v_mem v) a) = true -> forall am, am_mem am = am_mem (d_am d) ->
           (forall k, am_map am k = if inb k (a :: v_ever v) then Some (fetch (v_mem v) k, inst_len (v_mem v k)) else None) ->
           dinv {| v_mem := v_mem v; v_act := v_act v ++ [a]; v_ever := a :: v_ever v |}
                {| d_am := plant am a (inst_len (v_mem v a)); d_act := d_act d ++ [(a, true)] |}) as K.
  { intros KN am Hm Hmap. destruct (plant_ok v am a) as (P1 & P2 & P3 & P4). split; cbn [v_mem v_act v_ever d_am d_act].
    - apply (di_byte v d I).
    - apply P4. rewrite Hm. apply (di_mbyte v d I).
    - rewrite map_app, (di_act v d I). reflexivity.
    - intros p Hp. apply in_app_or in Hp as [Hp|[<-|[]]]; [apply (di_bp v d I); assumption|reflexivity].
    - apply NoDup_Add with (a := a) (l := v_act v); [|split; [apply (di_nodup v d I)|assumption]].
      rewrite <- (app_nil_r (v_act v)) at 1. apply Add_app.
    - intros x Hx. apply in_app_or in Hx as [Hx|[<-|[]]]; [right; apply (di_ever v d I); assumption|left; reflexivity].
    - intros x [<-|Hx]; [assumption|apply (di_known v d I), Hx].
    - intros k. rewrite P3. apply Hmap.
    - intros p q x Hp Hq Xp Xq. apply in_app_or in Hp as [Hp|[<-|[]]]; apply in_app_or in Hq as [Hq|[<-|[]]].
      + apply (di_apart v d I p q x); assumption.
      + destruct (D p x Hp Xq Xp).
      + destruct (D q x Hq Xp Xq).
      + reflexivity.
    - intros p x Hp Xp. apply in_app_or in Hp as [Hp|[<-|[]]]; [|apply P1; assumption].
      rewrite P2; [rewrite Hm; apply (di_on v d I); assumption|]. intros Xa. exact (D p x Hp Xa Xp).
    - intros x Hx. rewrite P2 by (apply Hx, in_or_app; right; left; reflexivity). rewrite Hm. apply (di_off v d I).
      intros p Hp. apply Hx, in_or_app. left; assumption. }
  unfold write_breakpoint. rewrite (di_map v d I). destruct (inb a (v_ever v)) eqn:Ev.
  - rewrite (di_known v d I a) by (apply inb_in; assumption). cbn [negb fst].
    apply K; [apply (di_known v d I), inb_in; assumption|reflexivity|].
    intros k. rewrite (di_map v d I). unfold inb; cbn [existsb]; fold (inb k (v_ever v)).
    destruct (Z.eqb_spec a k) as [<-|]; [rewrite Ev|]; reflexivity.
  - rewrite get_size_load, (known_ext (am_mem (d_am d)) (v_mem v) a E), E.
    destruct (known_lenb (fetch (v_mem v) a)) eqn:KL; cbn [negb].
    + destruct (Z.eqb_spec (inst_len (v_mem v a)) 0) as [e|]; [destruct (inst_len_cases (v_mem v) a); lia|].
      cbn [fst]. apply K; [reflexivity|reflexivity|]. intros k. cbn [am_map]. unfold inb; cbn [existsb]; fold (inb k (v_ever v)).
      destruct (Z.eqb_spec k a) as [->|N].
      * rewrite Z.eqb_refl. cbn [orb]. f_equal. f_equal.
        rewrite <- E, (word_of_load _ a (di_mbyte v d I)). apply (fetch_ext _ _ _ EA).
      * destruct (Z.eqb_spec a k) as [->|]; [congruence|]. cbn [orb]. apply (di_map v d I).
    + cbn [fst]. destruct d; exact I.
Qed.

Lemma filter_nil_id a l : filter (fun b => negb (b =? a)) l = l <-> ~ In a l.
Proof.
  split.
  - intros E H. rewrite <- E in H. apply filter_In in H as [_ H]. rewrite Z.eqb_refl in H. discriminate.
  - induction l as [|b l IH]; intros H; [reflexivity|]. cbn. destruct (Z.eqb_spec b a) as [->|N].
    + destruct H; left; reflexivity.
    + cbn [negb]. rewrite IH; [reflexivity|]. intros K; apply H; right; assumption.
Qed.
Lemma clear_ok v d a : dinv v d -> dinv (view_step v (ClearBp a)) (dbg_step d (ClearBp a)).
Proof.
  intros I. cbn [view_step dbg_step]. unfold clear_point. rewrite active_inb, (di_act v d I).
  destruct (inb a (v_act v)) eqn:A.
  - apply inb_in in A. pose proof (di_ever v d I a A) as Ev.
    destruct (write_original_ok v d a I Ev) as (W1 & W2 & W3 & W4). cbn [fst]. split; cbn [v_mem v_act v_ever d_am d_act].
    + apply (di_byte v d I).
    + exact W2.
    + rewrite <- (di_act v d I). clear. induction (d_act d) as [|p l IH]; [reflexivity|]. cbn. destruct (negb _); cbn; rewrite IH; reflexivity.
    + intros p Hp. apply filter_In in Hp as [Hp _]. apply (di_bp v d I), Hp.
    + apply NoDup_filter, (di_nodup v d I).
    + intros x Hx. apply filter_In in Hx as [Hx _]. apply (di_ever v d I), Hx.
    + apply (di_known v d I).
    + rewrite W1. apply (di_map v d I).
    + intros p q x Hp Hq. apply filter_In in Hp as [Hp _]. apply filter_In in Hq as [Hq _]. apply (di_apart v d I); assumption.
    + intros p x Hp Hx. apply filter_In in Hp as [Hp Np]. apply negb_true_iff, Z.eqb_neq in Np. rewrite W4.
      * apply (di_on v d I); assumption.
      * intros Xa. apply Np. apply (di_apart v d I p a x); assumption.
    + intros x Hx. destruct (inst_dec (v_mem v) a x) as [Xa|Xa]; [apply W3; assumption|]. rewrite W4 by assumption.
      apply (di_off v d I). intros b Hb. destruct (Z.eq_dec b a) as [->|N]; [assumption|].
      apply Hx, filter_In. split; [assumption|]. apply negb_true_iff, Z.eqb_neq; assumption.
  - apply inb_false in A. cbn [fst]. rewrite (proj2 (filter_nil_id a (v_act v)) A). destruct v; exact I.
Qed.

Lemma clear_all_ok v d : dinv v d -> dinv (view_step v ClearAll) (dbg_step d ClearAll).
Proof.
  intros I. cbn [dbg_step]. unfold clear_all.
  assert (filter snd (d_act d) = d_act d) as F.
  { pose proof (di_bp v d I) as B. clear I. induction (d_act d) as [|p l IH]; [reflexivity|]. cbn.
    rewrite (B p) by (left; reflexivity). rewrite IH; [reflexivity|]. intros q Hq; apply B; right; assumption. }
  rewrite F, (di_act v d I). clear F.
  assert (forall l v d, dinv v d -> incl (v_act v) l ->
            dinv {| v_mem := v_mem v; v_act := []; v_ever := v_ever v |} (fold_left (fun d a => fst (clear_point d a)) l d)) as K.
  { clear. induction l as [|a l IH]; intros v d I H; cbn [fold_left].
    - replace [] with (v_act v); [destruct v; exact I|]. destruct (v_act v) as [|b k]; [reflexivity|]. destruct (H b (or_introl eq_refl)).
    - refine (IH _ _ (clear_ok v d a I) _). cbn [view_step v_act]. intros b Hb. apply filter_In in Hb as [Hb N].
      apply negb_true_iff, Z.eqb_neq in N. destruct (H b Hb); [congruence|assumption]. }
  cbn [view_step]. apply K; [assumption|]. intros a; exact (fun H => H).
Qed.
Lemma dinv_am v d am : dinv v d -> am_map am = am_map (d_am d) -> (forall x, am_mem am x = am_mem (d_am d) x) ->
  dinv v {| d_am := am; d_act := d_act d |}.
Proof.
  intros I M E. split; cbn [d_am d_act]; try apply I.
  - intros x. rewrite E. apply (di_mbyte v d I).
  - rewrite M. apply (di_map v d I).
  - intros. rewrite E. apply (di_on v d I); assumption.
  - intros. rewrite E. apply (di_off v d I); assumption.
Qed.
(** Taking a breakpoint out and putting it back changes nothing. *)
Lemma replant_ok v d a : dinv v d -> In a (v_act v) ->
  dinv v {| d_am := fst (write_breakpoint (fst (write_original (d_am d) a)) a); d_act := d_act d |}.
Proof.
  intros I A. pose proof (di_ever v d I a A) as Ev.
  destruct (write_original_ok v d a I Ev) as (W1 & W2 & W3 & W4). set (am := fst (write_original (d_am d) a)) in *.
  unfold write_breakpoint. rewrite W1, (di_map v d I), (proj2 (inb_in _ _) Ev). cbn [fst].
  destruct (plant_ok v am a) as (P1 & P2 & P3 & P4). apply (dinv_am v d); [exact I|rewrite P3; exact W1|].
  intros x. destruct (inst_dec (v_mem v) a x) as [X|X].
  - rewrite P1 by assumption. symmetry. apply (di_on v d I); assumption.
  - rewrite P2, W4 by assumption. reflexivity.
Qed.
Lemma look_ok v d a : dinv v d -> dinv v (dbg_step d (Look a)).
Proof.
  intros I. cbn [dbg_step]. unfold get_instruction. rewrite active_inb, (di_act v d I). destruct (inb a (v_act v)) eqn:A; [|exact I].
  cbn [fst]. apply replant_ok; [exact I|apply inb_in; assumption].
Qed.
Lemma fetch_out m a n x b : (forall y, inst_bytes m b y -> ~ (a <= y < a + Z.of_nat n)) ->
  fetch (store_le m a n x) b = fetch m b /\ inst_len (store_le m a n x b) = inst_len (m b).
Proof. intros H. apply fetch_ext. intros y Hy. apply store_le_other, H, Hy. Qed.
Lemma poke_ok v d a n x : dinv v d -> dbg_good v (Poke a n x) -> dinv (view_step v (Poke a n x)) (dbg_step d (Poke a n x)).
Proof.
  intros I G. cbn [dbg_good view_step dbg_step] in *.
  assert (forall b, In b (v_ever v) -> fetch (store_le (v_mem v) a n x) b = fetch (v_mem v) b /\
            inst_len (store_le (v_mem v) a n x b) = inst_len (v_mem v b)) as F.
  { intros b Hb. apply fetch_out. intros y Hy. apply (G b y Hb Hy). }
  assert (forall b y, In b (v_ever v) -> inst_bytes (store_le (v_mem v) a n x) b y <-> inst_bytes (v_mem v) b y) as Y.
  { intros b y Hb. unfold inst_bytes. rewrite (proj2 (F b Hb)). reflexivity. }
  pose proof (di_ever v d I) as EV.
  split; cbn [v_mem v_act v_ever d_am d_act am_mem am_map].
  - apply byte_mem_store, (di_byte v d I).
  - apply byte_mem_store, (di_mbyte v d I).
  - apply (di_act v d I).
  - apply (di_bp v d I).
  - apply (di_nodup v d I).
  - apply (di_ever v d I).
  - intros b Hb. rewrite (proj1 (F b Hb)). apply (di_known v d I), Hb.
  - intros b. rewrite (di_map v d I). destruct (inb b (v_ever v)) eqn:Eb; [|reflexivity]. apply inb_in in Eb.
    destruct (F b Eb) as [-> ->]. reflexivity.
  - intros p q y Hp Hq. rewrite !Y by auto. apply (di_apart v d I); assumption.
  - intros p y Hp Hy. rewrite Y in Hy by auto. rewrite store_le_other by (apply (G p y); auto).
    rewrite (di_on v d I p y Hp Hy). unfold ebreak_byte. rewrite (proj2 (F p (EV p Hp))). reflexivity.
  - intros y Hy. unfold store_le at 1 2. destruct (_ && _); [reflexivity|]. apply (di_off v d I).
    intros p Hp. rewrite <- Y by auto. apply Hy, Hp.
Qed.
Lemma dbg_step_ok v d o : dinv v d -> dbg_good v o -> dinv (view_step v o) (dbg_step d o).
Proof.
  intros I G. destruct o; [apply set_ok|apply clear_ok|apply clear_all_ok|apply look_ok|apply poke_ok]; assumption.
Qed.
Lemma dbg_run_ok l : forall v d, dinv v d -> dbg_all_good v l -> dinv (fold_left view_step l v) (dbg_run d l).
Proof.
  induction l as [|o l IH]; intros v d I G; [exact I|]. destruct G as [G1 G2]. cbn [fold_left]. apply IH; [apply dbg_step_ok; assumption|assumption].
Qed.

(** ** C51 *)
Lemma breakpoints_main m l : byte_mem m -> dbg_all_good (view_init m) l ->
  let v := view_run m l in let d := dbg_run (dbg_init m) l in
  map fst (d_act d) = v_act v /\
  (forall a x, In a (v_act v) -> inst_bytes (v_mem v) a x -> am_mem (d_am d) x = ebreak_byte (v_mem v) a x) /\
  (forall x, (forall a, In a (v_act v) -> ~ inst_bytes (v_mem v) a x) -> am_mem (d_am d) x = v_mem v x).
Proof.
  intros B G v d. pose proof (dbg_run_ok l _ _ (dinv_init m B) G) as I.
  split; [apply (di_act _ _ I)|]. split; [apply (di_on _ _ I)|apply (di_off _ _ I)].
Qed.
Lemma cleared_main m l : byte_mem m -> dbg_all_good (view_init m) l -> v_act (view_run m l) = [] ->
  forall x, am_mem (d_am (dbg_run (dbg_init m) l)) x = v_mem (view_run m l) x.
Proof. intros B G E x. apply (breakpoints_main m l B G). rewrite E. intros a []. Qed.
Lemma look_main m l a : byte_mem m -> dbg_all_good (view_init m) l ->
  (forall b x, In b (v_act (view_run m l)) -> b <> a -> inst_bytes (v_mem (view_run m l)) a x -> inst_bytes (v_mem (view_run m l)) b x -> False) ->
  snd (get_instruction (dbg_run (dbg_init m) l) a) = fetch (v_mem (view_run m l)) a.
Proof.
  intros B G D. pose proof (dbg_run_ok l _ _ (dinv_init m B) G) as I. fold (view_run m l) in I.
  unfold get_instruction. rewrite active_inb, (di_act _ _ I). destruct (inb a _) eqn:A; cbn [snd].
  - apply inb_in in A. apply fetch_ext. apply (write_original_ok _ _ a I (di_ever _ _ I a A)).
  - apply inb_false in A. apply fetch_ext. intros x Hx. apply (dinv_clear_byte _ _ a x I); [|assumption].
    intros b y Hb. apply D; [assumption|]. intros ->; contradiction.
Qed.
