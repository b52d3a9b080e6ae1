(** C98: the memory trace tells what was read and written, and the memory sees every call. *)
From Coq Require Import ZArith List String Ascii Bool Lia.
From Verif Require Import WatchSpec WatchModel.
Import ListNotations.
Local Open Scope Z_scope.

(** ---- numbers ---- *)
Lemma hex_digit_value : forall d, 0 <= d < 16 -> hex_value (hex_digit d) = Some d /\ Ascii.eqb (hex_digit d) " " = false.
Proof.
  intros d B. assert (K : forallb (fun d => match hex_value (hex_digit d) with Some e => (e =? d) && negb (Ascii.eqb (hex_digit d) " ") | None => false end)
    (map Z.of_nat (seq 0 16)) = true) by (vm_compute; reflexivity).
  assert (I : In d (map Z.of_nat (seq 0 16))).
  { apply in_map_iff. exists (Z.to_nat d). split; [lia |]. apply in_seq. lia. }
  pose proof (proj1 (forallb_forall _ _) K d I) as E. cbv beta in E. destruct (hex_value (hex_digit d)) as [e |]; [| discriminate E].
  apply andb_true_iff in E. destruct E as [E1 E2]. apply Z.eqb_eq in E1. apply negb_true_iff in E2. subst e. split; [reflexivity | exact E2].
Qed.
Lemma digits_snoc : forall l acc c, digits_value acc (l ++ [c]) =
  match digits_value acc l with Some x => match hex_value c with Some d => Some (16 * x + d) | None => None end | None => None end.
Proof.
  induction l as [| a l IH]; intros acc c; cbn [app digits_value].
  - destruct (hex_value c); reflexivity.
  - destruct (hex_value a); [apply IH | reflexivity].
Qed.
Lemma digits_hex : forall n v acc, 0 <= v < 16 ^ Z.of_nat n -> digits_value acc (Hex n v) = Some (acc * 16 ^ Z.of_nat n + v).
Proof.
  induction n as [| n IH]; intros v acc B; cbn [Hex].
  - cbn [digits_value]. f_equal. cbn in B |- *. lia.
  - rewrite Nat2Z.inj_succ, Z.pow_succ_r in * by lia. rewrite digits_snoc, IH.
    + destruct (hex_digit_value (v mod 16) (Z.mod_pos_bound v 16 ltac:(lia))) as [-> _]. f_equal. pose proof (Z.div_mod v 16). lia.
    + split; [apply Z.div_pos; lia | apply Z.div_lt_upper_bound; lia].
Qed.
Lemma hex_length : forall n v, List.length (Hex n v) = n.
Proof. induction n as [| n IH]; intros v; cbn [Hex]; [reflexivity |]. rewrite app_length, IH. cbn [List.length]. lia. Qed.
Lemma hex_plain : forall n v, forallb (fun c => negb (Ascii.eqb c " ")) (Hex n v) = true.
Proof.
  induction n as [| n IH]; intros v; cbn [Hex]; [reflexivity |]. rewrite forallb_app, IH. cbn [forallb].
  destruct (hex_digit_value (v mod 16) (Z.mod_pos_bound v 16 ltac:(lia))) as [_ ->]. reflexivity.
Qed.

(** ---- words ---- *)
Definition spaced (l : list text) : text := flat_map (cons " "%char) l.
Definition word (w : text) : Prop := forallb (fun c => negb (Ascii.eqb c " ")) w = true.
Lemma words_word : forall w rest r, word w -> words rest = [] :: r -> words (w ++ rest) = w :: r.
Proof.
  induction w as [| c w IH]; intros rest r W R; cbn [app]; [exact R |].
  unfold word in W. cbn [forallb] in W. apply andb_true_iff in W. destruct W as [W1 W2]. apply negb_true_iff in W1.
  cbn [words]. rewrite W1, (IH rest r W2 R). reflexivity.
Qed.
Lemma words_spaced : forall l, Forall word l -> words (spaced l) = [] :: l.
Proof.
  intros l F. induction F as [| w l W F IH]; [reflexivity |]. unfold spaced. cbn [flat_map].
  change (words (" "%char :: w ++ spaced l) = [] :: w :: l). cbn [words]. rewrite Ascii.eqb_refl. f_equal. exact (words_word w _ _ W IH).
Qed.
Definition hexword (n : nat) (v : Z) : text := "0"%char :: "x"%char :: Hex n v.
Definition mem_word : text := ["m"; "e"; "m"]%char.
Definition event_words (e : event) : list text :=
  match e with Read a => [mem_word; hexword 16 a] | Wrote a n v => [mem_word; hexword 16 a; hexword (2 * n) v] end.
Definition in_range (e : event) : Prop :=
  match e with Read a => 0 <= a < 2 ^ 64 | Wrote a n v => 0 <= a < 2 ^ 64 /\ 0 <= v < 256 ^ Z.of_nat n end.
Lemma number_hex : forall n v, 0 <= v < 16 ^ Z.of_nat n -> number (hexword n v) = Some (n, v).
Proof. intros n v B. unfold hexword. cbn [number]. rewrite !Ascii.eqb_refl. cbn [andb]. rewrite digits_hex by exact B. cbn [option_map]. rewrite hex_length. reflexivity. Qed.
Lemma event_word : forall e, Forall word (event_words e).
Proof.
  assert (K : forall n v, word (hexword n v)) by (intros n v; unfold word, hexword; cbn [forallb]; rewrite hex_plain; reflexivity).
  intros [a | a n v]; unfold event_words; repeat constructor; apply K.
Qed.
Lemma read_events : forall l, Forall in_range l -> read_words (flat_map event_words l) = Some l.
Proof.
  assert (S16 : forall a, 0 <= a < 2 ^ 64 -> number (hexword 16 a) = Some (16%nat, a)).
  { intros a B. apply number_hex. change (16 ^ Z.of_nat 16) with (2 ^ 64). exact B. }
  intros l F. induction F as [| e l R F IH]; [reflexivity |]. destruct e as [a | a n v]; cbn [in_range] in R; cbn [flat_map event_words app].
  - cbn [read_words]. change (is_mem mem_word) with true. cbv iota. rewrite (S16 a R).
    destruct l as [| e l]; [reflexivity |].
    assert (M : exists t, flat_map event_words (e :: l) = mem_word :: t) by (destruct e; eexists; reflexivity).
    destruct M as [t M]. rewrite M in IH |- *. change (is_mem mem_word) with true. cbv iota. rewrite IH. reflexivity.
  - destruct R as [Ra Rv]. cbn [read_words]. change (is_mem mem_word) with true. cbv iota. rewrite (S16 a Ra).
    assert (N : is_mem (hexword (2 * n) v) = false).
    { unfold hexword. cbn [is_mem]. destruct (Hex (2 * n) v) as [| c [| d r]]; reflexivity. }
    rewrite N. rewrite number_hex.
    + rewrite IH. cbn [option_map]. rewrite (Nat.mul_comm 2 n), Nat.div_mul by lia. reflexivity.
    + replace (16 ^ Z.of_nat (2 * n)) with (256 ^ Z.of_nat n); [exact Rv |]. rewrite Nat2Z.inj_mul, Z.pow_mul_r by lia. reflexivity.
Qed.

(** ---- calls ---- *)
Definition whole_size (n : nat) : Prop := n = 1%nat \/ n = 2%nat \/ n = 4%nat \/ n = 8%nat.
(** The calls the trace is right about: scalar ones of 1, 2, 4, 8 bytes; vector loads with all elements active; vector stores
    with all elements active and equal. *)
Definition traceable (c : call) : Prop :=
  match c with
  | LoadOne a _ => 0 <= a < 2 ^ 64
  | LoadMany l m _ => Forall (fun a => 0 <= a < 2 ^ 64) l /\ m = repeat true (List.length l)
  | StoreOne a b => 0 <= a < 2 ^ 64 /\ whole_size (List.length b) /\ Forall (fun x => 0 <= x < 256) b
  | StoreMany l m n b => Forall (fun a => 0 <= a < 2 ^ 64) l /\ m = repeat true (List.length l) /\ whole_size n /\ Forall (fun x => 0 <= x < 256) b /\
                         forall i, (i < List.length l)%nat -> element n i b = element n 0 b
  | Clear => True
  end.
Lemma le_bound : forall b, Forall (fun x => 0 <= x < 256) b -> 0 <= le_value b < 256 ^ Z.of_nat (List.length b).
Proof.
  intros b F. induction F as [| x b B F IH]; cbn [le_value List.length]; [cbn; lia |]. rewrite Nat2Z.inj_succ, Z.pow_succ_r by lia. lia.
Qed.
Lemma le_bound_first : forall n b, Forall (fun x => 0 <= x < 256) b -> 0 <= le_value (firstn n b) < 256 ^ Z.of_nat n.
Proof.
  intros n b F. assert (G : Forall (fun x => 0 <= x < 256) (firstn n b)).
  { rewrite <- (firstn_skipn n b) in F. apply Forall_app in F. exact (proj1 F). }
  pose proof (le_bound _ G) as [B1 B2]. split; [exact B1 |]. eapply Z.lt_le_trans; [exact B2 |].
  apply Z.pow_le_mono_r; [lia |]. pose proof (firstn_le_length n b). lia.
Qed.
Lemma combine_true : forall (l : list Z), combine l (repeat true (List.length l)) = map (fun a => (a, true)) l.
Proof. induction l as [| a l IH]; cbn [List.length repeat combine map]; [reflexivity |]. rewrite IH. reflexivity. Qed.
Lemma meant_load : forall l, map (fun p => Read (fst p)) (filter snd (combine l (repeat true (List.length l)))) = map Read l.
Proof. intros l. rewrite combine_true. induction l as [| a l IH]; cbn [map filter snd fst]; [reflexivity |]. rewrite IH. reflexivity. Qed.
Lemma meant_store : forall n b l s, (forall i, (s <= i < s + List.length l)%nat -> element n i b = element n 0 b) ->
  map (fun p => Wrote (fst (snd p)) n (le_value (element n (fst p) b)))
      (filter (fun p => snd (snd p)) (combine (seq s (List.length l)) (combine l (repeat true (List.length l))))) =
  map (fun a => Wrote a n (le_value (firstn n b))) l.
Proof.
  intros n b l. induction l as [| a l IH]; intros s H; [reflexivity |].
  cbn [List.length seq repeat combine filter snd map fst]. rewrite (H s) by (cbn [List.length]; lia).
  rewrite (IH (S s)); [reflexivity |]. intros i Hi. apply H. cbn [List.length]. lia.
Qed.
Lemma appended_address : forall a, StrAddress a = spaced (event_words (Read a)).
Proof. intros a. unfold StrAddress, spaced, hexword, mem_word. cbn [event_words flat_map list_ascii_of_string app]. rewrite app_nil_r. reflexivity. Qed.
Lemma appended_store : forall a n b, whole_size n -> (StrAddress a ++ StrValue n b)%list = spaced (event_words (Wrote a n (le_value (firstn n b)))).
Proof.
  intros a n b [-> | [-> | [-> | ->]]]; unfold StrAddress, StrValue, spaced, hexword, mem_word, event_words; cbn [Nat.mul Nat.add];
    unfold flat_map; cbn [list_ascii_of_string app]; rewrite app_nil_r; reflexivity.
Qed.
Lemma spaced_app : forall a b, spaced (a ++ b) = (spaced a ++ spaced b)%list.
Proof. intros a b. unfold spaced. apply flat_map_app. Qed.
Lemma spaced_each : forall A (f : A -> event) (g : A -> text) l, (forall a, g a = spaced (event_words (f a))) ->
  flat_map g l = spaced (flat_map event_words (map f l)).
Proof. intros A f g l H. induction l as [| a l IH]; [reflexivity |]. cbn [flat_map map]. rewrite spaced_app, IH, H. reflexivity. Qed.
Lemma appended_meant : forall c, traceable c -> appended c = spaced (flat_map event_words (meant c)) /\ Forall in_range (meant c).
Proof.
  intros [a n | l m n | a b | l m n b |] T; cbn [traceable] in T.
  - cbn [appended meant]. rewrite appended_address. split; [reflexivity | constructor; [exact T | constructor]].
  - destruct T as [T ->]. cbn [appended meant]. rewrite meant_load. split; [apply spaced_each; exact appended_address |].
    rewrite Forall_map. exact T.
  - destruct T as (Ta & Ts & Tb). cbn [appended meant]. rewrite appended_store by exact Ts. rewrite firstn_all. split.
    + cbn [flat_map]. rewrite app_nil_r. reflexivity.
    + constructor; [split; [exact Ta | exact (le_bound b Tb)] | constructor].
  - destruct T as (Ta & -> & Ts & Tb & Te). cbn [appended meant]. rewrite meant_store by (intros i Hi; apply Te; lia). split.
    + apply spaced_each. intros a. apply appended_store. exact Ts.
    + rewrite Forall_map. eapply Forall_impl; [| exact Ta]. intros a Ha. split; [exact Ha | exact (le_bound_first n b Tb)].
  - split; [reflexivity | constructor].
Qed.

(** ---- histories ---- *)
Definition is_clear (d : call) : bool := match d with Clear => true | _ => false end.
Lemma since_snoc : forall l c, since_clear (l ++ [c]) = if is_clear c then [] else (since_clear l ++ [c])%list.
Proof.
  assert (K : forall l, existsb is_clear l = false -> since_clear l = l).
  { induction l as [| a l IH]; intros E; [reflexivity |]. cbn [existsb] in E. apply orb_false_iff in E. destruct E as [E1 E2].
    cbn [since_clear]. fold is_clear. rewrite E2. destruct a; try reflexivity. discriminate E1. }
  induction l as [| a l IH]; intros c; cbn [app since_clear].
  - destruct c; reflexivity.
  - fold is_clear. rewrite existsb_app. cbn [existsb]. rewrite orb_false_r, IH.
    destruct (existsb is_clear l) eqn:E; cbn [orb]; [reflexivity |]. destruct (is_clear c) eqn:C; cbn [orb]; [reflexivity |].
    destruct a; reflexivity.
Qed.
Lemma watch_snoc : forall l c, watch (l ++ [c]) = watch_step (watch l) c.
Proof. intros l c. unfold watch. rewrite fold_left_app. reflexivity. Qed.
Lemma watch_state : forall l, trace_str (watch l) = flat_map appended (since_clear l) /\ received (watch l) = memory_calls l.
Proof.
  apply rev_ind; [split; reflexivity |]. intros c l [T R]. rewrite watch_snoc, since_snoc. unfold memory_calls. rewrite filter_app. fold (memory_calls l).
  destruct c; cbn [is_clear watch_step trace_str received filter flat_map]; rewrite ?flat_map_app, ?app_nil_r, <- ?T, <- ?R; cbn [flat_map]; rewrite ?app_nil_r; split; reflexivity.
Qed.

(** After any history, the trace reads as the events of the calls since the last clearing. *)
Theorem watch_trace_partial : forall l, Forall traceable (since_clear l) -> read_trace (trace_str (watch l)) = Some (flat_map meant (since_clear l)).
Proof.
  intros l F. rewrite (proj1 (watch_state l)). remember (since_clear l) as s. clear Heqs l.
  assert (A : flat_map appended s = spaced (flat_map event_words (flat_map meant s)) /\ Forall in_range (flat_map meant s)).
  { induction F as [| c s T F [IH1 IH2]]; [split; [reflexivity | constructor] |]. destruct (appended_meant c T) as [E R].
    cbn [flat_map]. rewrite flat_map_app, spaced_app, <- E, <- IH1. split; [reflexivity | apply Forall_app; split; assumption]. }
  destruct A as [E R]. unfold read_trace. rewrite E, words_spaced.
  - apply read_events. exact R.
  - clear. induction (flat_map meant s) as [| e r IH]; cbn [flat_map]; [constructor |]. apply Forall_app. split; [apply event_word | exact IH].
Qed.
Print Assumptions watch_trace_partial.
Example watch_trace_example :
  let l := [StoreOne 5 [1]; Clear; LoadOne 0x1000 4; StoreOne 0xfedc [0x34; 0x12]; StoreMany [8; 24] [true; true] 4 [1; 2; 3; 255; 1; 2; 3; 255]] in
  Forall traceable (since_clear l) /\ flat_map meant (since_clear l) = [Read 0x1000; Wrote 0xfedc 2 0x1234; Wrote 8 4 0xff030201; Wrote 24 4 0xff030201].
Proof.
  cbv zeta. split; [| vm_compute; reflexivity]. cbn [since_clear existsb orb].
  constructor; [cbn; lia |]. constructor; [cbn; unfold whole_size; repeat split; try lia; repeat constructor; lia |].
  constructor; [| constructor]. cbn [traceable].
  split; [repeat constructor; lia |]. split; [reflexivity |]. split; [unfold whole_size; lia |]. split; [repeat constructor; lia |].
  intros i Hi. cbn [List.length] in Hi. destruct i as [| [| i]]; [reflexivity | reflexivity | lia].
Qed.

(** Whatever the calls, the memory behind gets them all, unchanged and in order. *)
Theorem watch_transparent : forall l, received (watch l) = memory_calls l.
Proof. intros l. exact (proj2 (watch_state l)). Qed.
Print Assumptions watch_transparent.
Example watch_transparent_example : received (watch [LoadOne 1 2; Clear; StoreOne 3 [4]]) = [LoadOne 1 2; StoreOne 3 [4]].
Proof. reflexivity. Qed.

(** A vector store is traced with the value of its first element throughout, inactive elements are traced, and a store of 3 or
    16 bytes reads as a load. *)
Theorem watch_vector_refuted :
  read_trace (trace_str (watch [StoreMany [16; 17] [true; true] 1 [7; 9]])) = Some [Wrote 16 1 7; Wrote 17 1 7] /\
  flat_map meant [StoreMany [16; 17] [true; true] 1 [7; 9]] = [Wrote 16 1 7; Wrote 17 1 9] /\
  read_trace (trace_str (watch [LoadMany [16; 17] [true; false] 1])) = Some [Read 16; Read 17] /\
  flat_map meant [LoadMany [16; 17] [true; false] 1] = [Read 16].
Proof. vm_compute. repeat split. Qed.
Print Assumptions watch_vector_refuted.
Theorem watch_size_refuted : forall a b, 0 <= a < 2 ^ 64 -> ~ whole_size (List.length b) ->
  read_trace (trace_str (watch [StoreOne a b])) = Some [Read a] /\ meant (StoreOne a b) = [Wrote a (List.length b) (le_value b)].
Proof.
  intros a b B N. split; [| reflexivity].
  assert (E : trace_str (watch [StoreOne a b]) = trace_str (watch [LoadOne a 0])).
  { unfold watch. cbn [fold_left watch_step trace_str app appended]. unfold StrValue.
    destruct (List.length b) as [| [| [| [| [| [| [| [| [| n]]]]]]]]]; try (exfalso; apply N; unfold whole_size; lia); apply app_nil_r. }
  rewrite E. apply (watch_trace_partial [LoadOne a 0]). constructor; [exact B | constructor].
Qed.
Print Assumptions watch_size_refuted.
Example watch_size_example : ~ whole_size (List.length [1; 2; 3]).
Proof. unfold whole_size. cbn. lia. Qed.
