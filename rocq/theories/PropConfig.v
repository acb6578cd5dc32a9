(** Repeating and debouncing for every setting of the times in asdf_config.h
    (C144, C145). *)
From Coq Require Import List NArith ZArith Arith Bool Lia.
From Coq Require Import ZifyBool ZifyNat ZifyN.
From Verif Require Import Base Lib Repeat RepeatProofs Config Asdf KeySpec Obs PropDebounce PropEvents.
Import ListNotations.

(** ** Specification *)
(** The last selection of autorepeat wins; [b] is the setting at power-on. *)
Definition auto_after (b : bool) (h : list rop) : bool :=
  fold_left (fun b o => match o with OAutoOn => true | OAutoOff => false | _ => b end) h b.
(** The n-th call after a restart reports a repeat: first after [d], then every [p] calls. *)
Definition rings (d p n : nat) : bool := (d <=? n) && ((n - d) mod p =? 0).
(** Times that fit an int, of 16 bits on the processors used. *)
Definition fits (cf : config) : Prop := (cf_auto cf <= 32767)%N /\ (cf_rep cf <= 32767)%N.

(** How many readings in a row or not it takes, with debounce time [t]: a byte
    is counted down, and 0 counts as 256. *)
Definition needed (t : N) : nat := if (t mod 256 =? 0)%N then 256 else N.to_nat (t mod 256).
(** A key that is accepted after [d] readings that differ from the accepted
    state: the accepted state and the readings that differed so far. *)
Definition counts (d : nat) (st : bool * nat) (b : bool) : bool * nat :=
  if Bool.eqb b (fst st) then st else if S (snd st) =? d then (b, 0) else (fst st, S (snd st)).
Definition accepted (d : nat) (l : list bool) : bool := fst (fold_left (counts d) l (false, 0)).
(** In each scan, row by row, the keys whose accepted state changes. *)
Definition key_moves (d : nat) (pre : list (nat -> N)) (rd : nat -> N) (r c : nat) : list (nat * nat * bool) :=
  let b := accepted d (key_readings (pre ++ [rd]) r c) in
  if Bool.eqb (accepted d (key_readings pre r c)) b then [] else [(r, c, b)].
Fixpoint all_moves (d R C : nat) (pre rds : list (nat -> N)) : list (nat * nat * bool) :=
  match rds with
  | [] => []
  | rd :: t => flat_map (fun r => flat_map (key_moves d pre rd r) (seq 0 C)) (seq 0 R) ++ all_moves d R C (pre ++ [rd]) t
  end.

(** ** Repeating: proofs *)
Lemma cr_run_app : forall cf a b r,
  cr_run cf (a ++ b) r = (fst (cr_run cf a r) ++ fst (cr_run cf b (snd (cr_run cf a r))), snd (cr_run cf b (snd (cr_run cf a r)))).
Proof.
  intros cf a. induction a as [|o a IH]; intros b r; cbn [app cr_run].
  - cbn [fst snd app]. destruct (cr_run cf b r). reflexivity.
  - destruct (cr_step cf o r) as [bs r1]. rewrite IH. destruct (cr_run cf a r1) as [x y]. cbn [fst snd]. rewrite app_assoc. reflexivity.
Qed.
Lemma cr_answers_app : forall cf a b, cr_answers cf (a ++ b) = cr_answers cf a ++ fst (cr_run cf b (snd (cr_run cf a (cr_init cf)))).
Proof. intros cf a b. unfold cr_answers. rewrite cr_run_app. reflexivity. Qed.
Lemma timer_id : forall x, (x <= 32767)%N -> key_timer x = x.
Proof. intros x H. unfold key_timer. apply N.mod_small. lia. Qed.

Lemma fst_let : forall (l : list bool) (p : list bool * crep), fst (let '(a, r) := p in (l ++ a, r)) = l ++ fst p.
Proof. intros l [a r]. reflexivity. Qed.

Section Times.
Variable cf : config.
Hypothesis small : fits cf.
Definition base_val (b : bool) : N := if b then cf_auto cf else 0%N.
Lemma base_small : forall b, (base_val b <= 32767)%N.
Proof. intros b. destruct small. unfold base_val. destruct b; lia. Qed.

(** With different times, the state tells the mode. *)
Definition told (sel rel : bool) (r : crep) : Prop :=
  cr_base r = base_val sel /\ (cr_state r = base_val sel \/ cr_state r = cf_rep cf) /\ (rel = true -> cr_state r = base_val sel) /\ (cr_state r = 0%N -> cr_timer r = 0%N \/ cf_rep cf = 0%N).
Definition sel_step (b : bool) (o : rop) : bool := match o with OAutoOn => true | OAutoOff => false | _ => b end.
Definition rel_step (b : bool) (o : rop) : bool := match o with OActivate => false | ODeactivate => true | _ => b end.
Lemma told_step : (cf_rep cf <> 0)%N -> (cf_rep cf <> cf_auto cf)%N -> (cf_auto cf <> 0)%N -> forall o sel rel r, told sel rel r -> told (sel_step sel o) (rel_step rel o) (snd (cr_step cf o r)).
Proof.
  intros NZ NE NA o sel rel [st ba ti] (B&S&L&Z). cbn [cr_base cr_state cr_timer] in *. destruct small as [S1 S2].
  assert (K0 : key_timer 0 = 0%N) by reflexivity.
  destruct o; cbn [cr_step snd sel_step rel_step].
  - unfold cr_reset, told. cbn [cr_base cr_state cr_timer]. split; [exact B|]. split; [exact S|]. split; [exact L|]. intros E. rewrite E. left. exact K0.
  - unfold cr_auto_off, told, V_ON, V_OFF. cbn [cr_base cr_state cr_timer]. destruct (N.eqb_spec (cf_rep cf) st) as [E|E]; cbn [negb cr_base cr_state cr_timer base_val].
    + split; [reflexivity|]. split; [right; congruence|]. split; [|congruence]. intros X. exfalso. specialize (L X). unfold base_val in L. destruct sel; congruence.
    + split; [reflexivity|]. split; [left; reflexivity|]. split; [reflexivity|]. left. exact K0.
  - unfold cr_auto_on, told, V_ON, V_AUTO. cbn [cr_base cr_state cr_timer]. destruct (N.eqb_spec (cf_rep cf) st) as [E|E]; cbn [negb cr_base cr_state cr_timer base_val].
    + split; [reflexivity|]. split; [right; congruence|]. split; [|congruence]. intros X. exfalso. specialize (L X). unfold base_val in L. destruct sel; congruence.
    + split; [reflexivity|]. split; [left; reflexivity|]. split; [reflexivity|]. congruence.
  - unfold cr_activate, told, V_ON, V_OFF. cbn [cr_base cr_state cr_timer]. destruct ((cf_rep cf <? ti)%N || (0 =? st)%N) eqn:E; cbn [cr_base cr_state cr_timer].
    + split; [exact B|]. split; [right; reflexivity|]. split; [discriminate|]. congruence.
    + split; [exact B|]. split; [exact S|]. split; [discriminate|]. exact Z.
  - unfold cr_deactivate, told. cbn [cr_base cr_state cr_timer]. split; [exact B|]. split; [left; exact B|]. split; [intros _; exact B|]. intros E. rewrite E. left. exact K0.
  - unfold cr_tick, V_ON. cbn [cr_base cr_state cr_timer]. destruct (N.eqb_spec ti 0) as [E|E]; [cbn [snd]; split; [exact B|]; split; [exact S|]; split; [exact L|exact Z]|].
    assert (Z' : st <> 0%N) by (intros X; destruct (Z X); congruence).
    destruct (N.eqb_spec (ti - 1) 0); cbn [snd]; (split; [exact B|]; split; [exact S|]; split; [exact L|]; cbn [cr_state]; congruence).
Qed.
Lemma told_run : (cf_rep cf <> 0)%N -> (cf_rep cf <> cf_auto cf)%N -> (cf_auto cf <> 0)%N -> forall h sel rel r, told sel rel r ->
  told (fold_left sel_step h sel) (fold_left rel_step h rel) (snd (cr_run cf h r)).
Proof.
  intros NZ NE NA h. induction h as [|o h IH]; intros sel rel r T; [exact T|]. cbn [fold_left cr_run].
  pose proof (told_step NZ NE NA o sel rel r T) as T1. destruct (cr_step cf o r) as [bs r1]. cbn [snd] in T1. specialize (IH _ _ _ T1). destruct (cr_run cf h r1). exact IH.
Qed.
Lemma told_init : told (cf_starts_auto cf) true (cr_init cf).
Proof.
  unfold cr_init, told, V_AUTO, V_OFF, base_val. cbv zeta. cbn [cr_base cr_state cr_timer]. split; [reflexivity|]. split; [left; reflexivity|]. split; [reflexivity|]. intros E. rewrite E. left. reflexivity.
Qed.
Lemma told_after : (cf_rep cf <> 0)%N -> (cf_rep cf <> cf_auto cf)%N -> (cf_auto cf <> 0)%N -> forall h, told (auto_after (cf_starts_auto cf) h) (released h) (snd (cr_run cf h (cr_init cf))).
Proof. intros NZ NE NA h. exact (told_run NZ NE NA h _ _ _ told_init). Qed.

Lemma rings_one : forall p k, p <> 0 -> rings 1 p (S (S k)) = rings p p (S k).
Proof.
  intros p k NZ. unfold rings. replace (S (S k) - 1) with (S k) by lia. change (1 <=? S (S k)) with true. cbn [andb]. destruct (Nat.leb_spec p (S k)) as [L|L]; cbn [andb].
  - assert (E : S k = (S k - p) + 1 * p) by lia. rewrite E at 1. rewrite Nat.mod_add by exact NZ. reflexivity.
  - rewrite Nat.mod_small by exact L. reflexivity.
Qed.
Lemma ticks_ring : (cf_rep cf <> 0)%N -> forall n st ba t, (1 <= t)%N ->
  fst (cr_run cf (repeat OTick n) (mkCrep st ba t)) = map (rings (N.to_nat t) (N.to_nat (cf_rep cf))) (seq 1 n).
Proof.
  intros NZ n. induction n as [|n IH]; intros st ba t T; [reflexivity|]. cbn [repeat cr_run cr_step seq map]. unfold cr_tick, V_ON. cbn [cr_timer cr_state cr_base].
  destruct (N.eqb_spec t 0) as [E|_]; [clear -E T; lia|]. rewrite <- (seq_shift n 1), map_map. destruct (N.eqb_spec (t - 1) 0) as [E|E].
  - assert (t = 1)%N by (clear -E T; lia). subst t. rewrite (timer_id _ (proj2 small)).
    assert (P : (1 <= cf_rep cf)%N) by (clear -NZ; lia). specialize (IH st ba (cf_rep cf) P). rewrite fst_let. cbn [app]. f_equal; [unfold rings; change (1 - N.to_nat 1) with 0; rewrite Nat.mod_0_l by (clear -NZ; lia); reflexivity|]. rewrite IH.
    apply map_ext_in. intros k I. apply in_seq in I. destruct k as [|k]; [clear -I; lia|]. symmetry. change (N.to_nat 1) with 1. apply rings_one. clear -NZ. lia.
  - assert (P : (1 <= t - 1)%N) by (clear -E; lia). specialize (IH st ba (t - 1)%N P). rewrite fst_let. cbn [app]. f_equal.
    + unfold rings. destruct (Nat.leb_spec (N.to_nat t) 1) as [L|L]; [clear -L E T; lia|]. reflexivity.
    + rewrite IH. apply map_ext_in. intros k _. unfold rings. replace (S k - N.to_nat t) with (k - N.to_nat (t - 1)) by (clear -T; lia).
      replace (N.to_nat t <=? S k) with (N.to_nat (t - 1) <=? k) by (clear -T E; lia). reflexivity.
Qed.
Lemma ticks_dead : forall n st ba, fst (cr_run cf (repeat OTick n) (mkCrep st ba 0)) = repeat false n.
Proof.
  intros n. induction n as [|n IH]; intros st ba; [reflexivity|]. cbn [repeat cr_run cr_step]. unfold cr_tick. cbn [cr_timer]. change (0 =? 0)%N with true. cbv iota. rewrite fst_let. cbn [app]. f_equal. apply IH.
Qed.
End Times.

(** ** Repeating: theorems *)
(** Whatever the two times, if they differ and are not 0: after any history,
    with REPEAT not held, the timer reports repeats first after the autorepeat
    time and then at every repeat time, or never, as selected last. *)
Theorem C144_cadence : forall cf h n, fits cf -> cf_auto cf <> 0%N -> cf_rep cf <> 0%N -> cf_rep cf <> cf_auto cf -> released h = true ->
  cr_answers cf (h ++ OReset :: repeat OTick n) = cr_answers cf h ++
    if auto_after (cf_starts_auto cf) h then map (rings (N.to_nat (cf_auto cf)) (N.to_nat (cf_rep cf))) (seq 1 n) else repeat false n.
Proof.
  intros cf h n F NA NZ NE RL. rewrite cr_answers_app. f_equal. pose proof (told_after cf F NZ NE NA h) as T. destruct (snd (cr_run cf h (cr_init cf))) as [st ba ti]. destruct T as (B&_&L&_). specialize (L RL). cbn [cr_state cr_base] in *.
  cbn [cr_run cr_step]. unfold cr_reset. cbn [cr_state cr_base]. rewrite L. rewrite (timer_id _ (base_small cf F _)).
  rewrite (fst_let []). cbn [app].
  unfold base_val. destruct (auto_after (cf_starts_auto cf) h); [apply ticks_ring; [exact F|exact NZ|clear -NA; lia]|apply ticks_dead].
Qed.
Print Assumptions C144_cadence.

(** REPEAT pressed while autorepeat is off: repeats at every repeat time. *)
Theorem C144_repeat_key : forall cf h n, fits cf -> cf_auto cf <> 0%N -> cf_rep cf <> 0%N -> cf_rep cf <> cf_auto cf -> released h = true ->
  auto_after (cf_starts_auto cf) h = false ->
  cr_answers cf (h ++ OActivate :: repeat OTick n) = cr_answers cf h ++ map (rings (N.to_nat (cf_rep cf)) (N.to_nat (cf_rep cf))) (seq 1 n).
Proof.
  intros cf h n F NA NZ NE RL AU. rewrite cr_answers_app. f_equal. pose proof (told_after cf F NZ NE NA h) as T. destruct (snd (cr_run cf h (cr_init cf))) as [st ba ti]. destruct T as (B&_&L&_). specialize (L RL). cbn [cr_state cr_base] in *. rewrite AU in L. cbn [base_val] in L. subst st.
  cbn [cr_run cr_step]. unfold cr_activate, V_OFF, V_ON. cbn [cr_state cr_base cr_timer]. change (0 =? 0)%N with true. rewrite orb_true_r. rewrite (timer_id _ (proj2 F)).
  rewrite (fst_let []). cbn [app].
  apply ticks_ring; [exact F|exact NZ|clear -NZ; lia].
Qed.
Print Assumptions C144_repeat_key.

(** With the times as shipped, this is the model of Repeat.v. *)
Definition seen (r : rep) : crep := mkCrep (rval (r_state r)) (rval (r_base r)) (r_timer r).
Lemma seen_step : forall o r, fst (cr_step shipped_config o (seen r)) = fst (rep_step o r) /\ snd (cr_step shipped_config o (seen r)) = seen (snd (rep_step o r)).
Proof.
  intros o [st ba ti]. destruct o; cbn [cr_step rep_step fst snd].
  - split; [reflexivity|]. destruct st; reflexivity.
  - split; [reflexivity|]. destruct st; reflexivity.
  - split; [reflexivity|]. destruct st; reflexivity.
  - split; [reflexivity|]. unfold cr_activate, repeat_activate, seen. cbn [cr_state cr_base cr_timer r_state r_base r_timer]. change (V_ON shipped_config) with (rval ROn). change (V_OFF =? rval st)%N with (0 =? rval st)%N.
    replace (0 =? rval st)%N with (rstate_eqb ROff st) by (destruct st; reflexivity). destruct ((rval ROn <? ti)%N || rstate_eqb ROff st); reflexivity.
  - split; [reflexivity|]. destruct ba; reflexivity.
  - unfold cr_tick, repeat_tick, seen. cbn [cr_timer r_timer cr_state cr_base r_state r_base]. destruct (ti =? 0)%N; [split; reflexivity|]. destruct (ti - 1 =? 0)%N; split; reflexivity.
Qed.
Theorem C144_shipped : forall h, cr_answers shipped_config h = answers h.
Proof.
  assert (X : forall h r, fst (cr_run shipped_config h (seen r)) = fst (rep_run h r)).
  { intros h. induction h as [|o h IH]; intros r; [reflexivity|]. cbn [cr_run rep_run]. destruct (seen_step o r) as [A B]. destruct (cr_step shipped_config o (seen r)) as [b1 r1]. destruct (rep_step o r) as [b2 r2]. cbn [fst snd] in A, B. subst b2 r1.
    specialize (IH r2). destruct (cr_run shipped_config h (seen r2)), (rep_run h r2). cbn [fst] in *. congruence. }
  intros h. exact (X h (repeat_init rep_zero)).
Qed.
Print Assumptions C144_shipped.

(** A slow keyboard: autorepeat after 1 s, 5 per second, off at power-on. *)
Definition slow : config := mkConfig 20 false 1000 200.
Example C144_example :
  (fits slow /\ cf_rep slow <> cf_auto slow) /\ released [OActivate; OTick; ODeactivate; OAutoOn; OTick] = true /\
  auto_after false [OActivate; OTick; ODeactivate; OAutoOn; OTick] = true /\
  filter (fun n => rings 1000 200 n) (seq 1 1500) = [1000; 1200; 1400].
Proof. split; [split; [split; vm_compute; discriminate|vm_compute; discriminate]|]. split; [reflexivity|]. split; [reflexivity|]. vm_compute. reflexivity. Qed.

(** If both times are equal, turning autorepeat off is not obeyed. *)
Theorem C144_equal_times_refuted : forall cf, fits cf -> cf_auto cf = cf_rep cf -> cf_rep cf <> 0%N -> cf_starts_auto cf = true ->
  released [OAutoOff] = true /\ auto_after (cf_starts_auto cf) [OAutoOff] = false /\
  forall n, cr_answers cf ([OAutoOff] ++ OReset :: repeat OTick n) = map (rings (N.to_nat (cf_rep cf)) (N.to_nat (cf_rep cf))) (seq 1 n).
Proof.
  intros cf F EQ NZ ST. split; [reflexivity|]. split; [reflexivity|]. intros n. rewrite cr_answers_app. unfold cr_answers. cbn [cr_run cr_step]. unfold cr_init, cr_auto_off, V_ON, V_AUTO, V_OFF. rewrite ST. cbv zeta. cbn [cr_state cr_base cr_timer].
  rewrite EQ, N.eqb_refl. cbn [negb fst snd app]. unfold cr_reset. cbn [cr_state cr_base]. rewrite (timer_id _ (proj2 F)).
  rewrite (fst_let []). cbn [app]. apply (ticks_ring cf F NZ n (cf_rep cf) 0%N (cf_rep cf)). clear -NZ. lia.
Qed.
Print Assumptions C144_equal_times_refuted.

(** With a repeat time of 0 (more than 1000 characters per second) a key held is
    repeated once, after the autorepeat time, and never again. *)
Theorem C144_no_time_refuted : forall cf n, fits cf -> cf_auto cf <> 0%N -> cf_rep cf = 0%N -> cf_starts_auto cf = true ->
  cr_answers cf (repeat OTick n) = map (fun k => k =? N.to_nat (cf_auto cf)) (seq 1 n).
Proof.
  intros cf n F NA Z ST. unfold cr_answers, cr_init, V_AUTO. rewrite ST. cbv zeta. rewrite (timer_id _ (proj1 F)).
  assert (X : forall n st ba t, (1 <= t)%N -> fst (cr_run cf (repeat OTick n) (mkCrep st ba t)) = map (fun k => k =? N.to_nat t) (seq 1 n)).
  { clear -Z. intros n. induction n as [|n IH]; intros st ba t T; [reflexivity|]. cbn [repeat cr_run cr_step seq map]. unfold cr_tick, V_ON. cbn [cr_timer cr_state cr_base]. rewrite Z. change (key_timer 0) with 0%N.
    destruct (N.eqb_spec t 0) as [E|_]; [clear -E T; lia|]. rewrite <- (seq_shift n 1), map_map. destruct (N.eqb_spec (t - 1) 0) as [E|E].
    - assert (t = 1)%N by (clear -E T; lia). subst t. pose proof (ticks_dead cf n st ba) as Y. rewrite fst_let. cbn [app]. f_equal. rewrite Y.
      clear. assert (G : forall n a, a >= 1 -> repeat false n = map (fun x => S x =? N.to_nat 1) (seq a n)) by (intros m; induction m as [|m IHm]; intros a A; [reflexivity|]; cbn [repeat seq map]; f_equal; [change (N.to_nat 1) with 1; lia|apply IHm; lia]). apply G. lia.
    - assert (P : (1 <= t - 1)%N) by (clear -E; lia). specialize (IH st ba (t - 1)%N P). rewrite fst_let. cbn [app]. f_equal; [clear -E T; lia|]. rewrite IH. apply map_ext_in. intros k _. clear -T. lia. }
  apply X. clear -NA. lia.
Qed.
Print Assumptions C144_no_time_refuted.

(** If autorepeat is no slower than REPEAT, the REPEAT key does nothing while
    autorepeat is on. *)
Theorem C144_repeat_ignored : forall cf h ops, fits cf -> cf_auto cf <> 0%N -> (cf_auto cf <= cf_rep cf)%N -> auto_after (cf_starts_auto cf) h = true ->
  cr_answers cf (h ++ OActivate :: ops) = cr_answers cf (h ++ ops).
Proof.
  intros cf h ops F NA LE AU. rewrite !cr_answers_app. f_equal.
  assert (X : forall h sel r, cr_base r = base_val cf sel -> (sel = true -> cr_state r <> 0%N) -> (cr_state r = 0%N \/ cr_state r = cf_auto cf \/ cr_state r = cf_rep cf) -> (cr_timer r <= cf_rep cf)%N ->
    let r' := snd (cr_run cf h r) in (fold_left sel_step h sel = true -> cr_state r' <> 0%N) /\ (cr_timer r' <= cf_rep cf)%N).
  { clear -F NA LE. destruct F as [S1 S2]. intros h. induction h as [|o h IH]; intros sel r B NZ ST T; [split; assumption|]. cbv zeta. cbn [cr_run fold_left].
    assert (Y : let r1 := snd (cr_step cf o r) in cr_base r1 = base_val cf (sel_step sel o) /\ (sel_step sel o = true -> cr_state r1 <> 0%N) /\ (cr_state r1 = 0%N \/ cr_state r1 = cf_auto cf \/ cr_state r1 = cf_rep cf) /\ (cr_timer r1 <= cf_rep cf)%N).
    { clear IH. destruct r as [st ba ti]. cbn [cr_base cr_state cr_timer] in *. assert (KS : forall x, (x = 0 \/ x = cf_auto cf \/ x = cf_rep cf)%N -> (key_timer x <= cf_rep cf)%N) by (intros x [-> | [-> | ->]]; rewrite timer_id by (clear -S1 S2; lia); clear -LE; lia).
      assert (BB : forall b, (base_val cf b = 0 \/ base_val cf b = cf_auto cf \/ base_val cf b = cf_rep cf)%N) by (intros b; unfold base_val; destruct b; auto).
      destruct o; cbn [cr_step snd sel_step].
      - unfold cr_reset. cbn [cr_base cr_state cr_timer]. split; [exact B|]. split; [exact NZ|]. split; [exact ST|apply KS; exact ST].
      - unfold cr_auto_off, V_ON, V_OFF. cbn [cr_base cr_state cr_timer]. destruct (negb _); cbn [cr_base cr_state cr_timer]; (split; [reflexivity|]; split; [discriminate|]).
        + split; [left; reflexivity|]. apply (KS 0%N). left. reflexivity.
        + split; [exact ST|exact T].
      - unfold cr_auto_on, V_ON, V_AUTO. cbn [cr_base cr_state cr_timer]. destruct (N.eqb_spec (cf_rep cf) st) as [E|E]; cbn [negb cr_base cr_state cr_timer].
        + split; [reflexivity|]. split; [intros _ X; clear -E X NA LE; lia|]. split; [exact ST|exact T].
        + split; [reflexivity|]. split; [intros _; exact NA|]. split; [right; left; reflexivity|]. apply (KS (cf_auto cf)). right. left. reflexivity.
      - unfold cr_activate, V_ON, V_OFF. cbn [cr_base cr_state cr_timer]. destruct (_ || _); cbn [cr_base cr_state cr_timer].
        + split; [exact B|]. split; [intros _ X; clear -X NA LE; lia|]. split; [right; right; reflexivity|]. apply (KS (cf_rep cf)). right. right. reflexivity.
        + split; [exact B|]. split; [exact NZ|]. split; [exact ST|exact T].
      - unfold cr_deactivate. cbn [cr_base cr_state cr_timer]. split; [exact B|]. rewrite B. split; [intros ->; cbn [base_val]; exact NA|]. split; [apply BB|apply KS, BB].
      - unfold cr_tick, V_ON. cbn [cr_base cr_state cr_timer]. destruct (ti =? 0)%N; [cbn [snd cr_base cr_state cr_timer]; split; [exact B|]; split; [exact NZ|]; split; [exact ST|exact T]|].
        destruct (ti - 1 =? 0)%N; cbn [snd cr_base cr_state cr_timer]; (split; [exact B|]; split; [exact NZ|]; split; [exact ST|]).
        + apply (KS (cf_rep cf)). right. right. reflexivity.
        + clear -T. lia. }
    cbv zeta in Y. destruct (cr_step cf o r) as [b1 r1]. cbn [snd] in Y. destruct Y as (Y1&Y2&Y3&Y4). specialize (IH _ r1 Y1 Y2 Y3 Y4). cbv zeta in IH. destruct (cr_run cf h r1). exact IH. }
  destruct (X h (cf_starts_auto cf) (cr_init cf)) as [X1 X2].
  - unfold cr_init, V_AUTO, V_OFF, base_val. destruct (cf_starts_auto cf); reflexivity.
  - intros E. unfold cr_init, V_AUTO. rewrite E. exact NA.
  - unfold cr_init, V_AUTO, V_OFF. destruct (cf_starts_auto cf); cbv zeta; cbn [cr_state]; auto.
  - unfold cr_init, V_AUTO, V_OFF. destruct (cf_starts_auto cf); cbv zeta; cbn [cr_timer]; [rewrite timer_id by exact (proj1 F); exact LE|]. change (key_timer 0) with 0%N. clear. lia.
  - specialize (X1 AU). destruct (snd (cr_run cf h (cr_init cf))) as [st ba ti]. cbn [cr_state cr_timer] in X1, X2. cbn [cr_run cr_step]. unfold cr_activate, V_ON, V_OFF. cbn [cr_state cr_timer cr_base].
    replace (cf_rep cf <? ti)%N with false by (clear -X2; lia). replace (0 =? st)%N with false by (clear -X1; lia). cbn [orb]. destruct (cr_run cf ops _). reflexivity.
Qed.
Print Assumptions C144_repeat_ignored.

(** ** Debouncing: proofs *)
Lemma flat_ext : forall (A B : Type) (f g : A -> list B) l, (forall x, In x l -> f x = g x) -> flat_map f l = flat_map g l.
Proof. intros A B f g l. induction l as [|a l IH]; intros H; [reflexivity|]. cbn [flat_map]. rewrite (H a (or_introl eq_refl)). f_equal. apply IH. intros x I. apply H. right. exact I. Qed.
Lemma needed_range : forall t, 1 <= needed t <= 256.
Proof. intros t. unfold needed. pose proof (N.mod_lt t 256 ltac:(discriminate)) as L. destruct (N.eqb_spec (t mod 256) 0) as [E|E]; [lia|]. clear -L E. generalize dependent (t mod 256)%N. intros m L E. lia. Qed.
(** The counter for a key that still needs [n] readings. *)
Definition left_over (n : nat) : N := (N.of_nat n mod 256)%N.
Lemma needed_left : forall t, left_over (needed t) = (t mod 256)%N.
Proof.
  intros t. unfold left_over, needed. pose proof (N.mod_lt t 256 ltac:(discriminate)) as L. destruct (N.eqb_spec (t mod 256) 0) as [E|E]; [rewrite E; reflexivity|]. rewrite N2Nat.id. apply N.mod_small. exact L.
Qed.
Lemma left_down : forall n, 1 <= n <= 256 -> ((left_over n + 255) mod 256 = left_over (n - 1))%N.
Proof.
  intros n H. unfold left_over. rewrite N.add_mod_idemp_l by discriminate. replace (N.of_nat n + 255)%N with (N.of_nat (n - 1) + 1 * 256)%N by (clear -H; lia). apply N.mod_add. discriminate.
Qed.
Lemma left_zero : forall n, n < 256 -> (left_over n =? 0)%N = (n =? 0).
Proof. intros n H. unfold left_over. rewrite N.mod_small by lia. lia. Qed.
Section Deb.
Variable cf : config.
Let d := needed (cf_debounce cf).
(** The state holds the accepted states and counts [P]. *)
Definition holds_st (s : cscan) (P : nat -> nat -> bool * nat) : Prop :=
  forall r c, N.testbit (cn_stable s r) (N.of_nat c) = fst (P r c) /\ cn_count s r c = left_over (d - snd (P r c)) /\ snd (P r c) < d.
Lemma holds_ext : forall s P P', (forall r c, P r c = P' r c) -> holds_st s P -> holds_st s P'.
Proof. intros s P P' E H r c. rewrite <- E. apply H. Qed.
Definition put2 (P : nat -> nat -> bool * nat) (row col : nat) (v : bool * nat) : nat -> nat -> bool * nat :=
  fun r c => if (r =? row) && (c =? col) then v else P r c.
Lemma press_holds : forall row col b s P, holds_st s P -> fst (P row col) = negb b ->
  let '(e, s1) := cn_press_or_release cf row col b s in
  e = (if fst (counts d (P row col) b) then (if fst (P row col) then [] else [(row, col, true)]) else (if fst (P row col) then [(row, col, false)] else [])) /\
  holds_st s1 (put2 P row col (counts d (P row col) b)).
Proof.
  intros row col b s P H FB. pose proof (needed_range (cf_debounce cf)) as NR. fold d in NR. destruct (H row col) as (H1&H2&H3). unfold cn_press_or_release. cbv zeta. rewrite H2. rewrite (left_down (d - snd (P row col))) by (clear -H3 NR; lia).
  rewrite left_zero by (clear -H3 NR; lia). unfold counts. rewrite FB. replace (Bool.eqb b (negb b)) with false by (destruct b; reflexivity).
  replace (d - snd (P row col) - 1 =? 0) with (S (snd (P row col)) =? d) by (clear -H3; lia).
  destruct (Nat.eqb_spec (S (snd (P row col))) d) as [E|E].
  - assert (W : forall w, (forall c, N.testbit w (N.of_nat c) = if c =? col then b else N.testbit (cn_stable s row) (N.of_nat c)) ->
      holds_st (put_stable (put_count (put_count s row col (left_over (d - snd (P row col) - 1))) row col (cf_debounce cf mod 256)) row w) (put2 P row col (b, 0))).
    { intros w HW r c. destruct (H r c) as (A1&A2&A3). unfold put2, put_stable, put_count. cbn [cn_stable cn_count]. destruct (Nat.eqb_spec r row) as [->|NR1]; cbn [andb]; [|split; [exact A1|split; [exact A2|exact A3]]].
      rewrite HW. destruct (Nat.eqb_spec c col) as [->|NC]; [|split; [exact A1|split; [exact A2|exact A3]]]. cbn [fst snd]. split; [reflexivity|]. split; [rewrite Nat.sub_0_r; unfold d; rewrite needed_left; reflexivity|clear -NR; lia]. }
    destruct b; cbn [fst negb]; (split; [reflexivity|]); apply W; intros c; unfold put_count; cbn [cn_stable]; destruct (Nat.eqb_spec c col) as [->|NC].
    + apply N.setbit_eq.
    + apply N.setbit_neq. clear -NC. lia.
    + apply N.clearbit_eq.
    + apply N.clearbit_neq. clear -NC. lia.
  - cbn [fst]. split; [destruct b; reflexivity|]. intros r c. destruct (H r c) as (A1&A2&A3). unfold put2, put_count. cbn [cn_stable cn_count]. destruct (Nat.eqb_spec r row) as [->|NR1]; cbn [andb]; [|split; [exact A1|split; [exact A2|exact A3]]].
    destruct (Nat.eqb_spec c col) as [->|NC]; [|split; [exact A1|split; [exact A2|exact A3]]]. cbn [fst snd]. split; [rewrite A1; exact FB|]. split; [f_equal; clear; lia|clear -E H3; lia].
Qed.
Definition step_moves (P P' : nat -> nat -> bool * nat) (r c : nat) : list (nat * nat * bool) :=
  if Bool.eqb (fst (P r c)) (fst (P' r c)) then [] else [(r, c, fst (P' r c))].
(** One key read [b]. *)
Definition after_key (word : N) (P : nat -> nat -> bool * nat) (r c : nat) : bool * nat := counts d (P r c) (N.testbit word (N.of_nat c)).
Lemma cols_holds : forall row word changed cs s P, NoDup cs -> holds_st s P ->
  (forall c, In c cs -> N.testbit changed (N.of_nat c) = xorb (N.testbit word (N.of_nat c)) (fst (P row c))) ->
  let '(e, s1) := cn_cols cf row word changed cs s in
  e = flat_map (fun c => step_moves P (after_key word P) row c) cs /\
  holds_st s1 (fun r c => if (r =? row) && existsb (Nat.eqb c) cs then after_key word P r c else P r c).
Proof.
  intros row word changed cs. induction cs as [|c cs IH]; intros s P ND H HC.
  - cbn [cn_cols flat_map existsb]. split; [reflexivity|]. apply (holds_ext s P); [|exact H]. intros r c. rewrite andb_false_r. reflexivity.
  - apply NoDup_cons_iff in ND as [NI ND]. cbn [cn_cols flat_map]. specialize (HC c) as HC0. rewrite HC0 by (left; reflexivity).
    assert (K : let '(e1, s1) := if xorb (N.testbit word (N.of_nat c)) (fst (P row c)) then cn_press_or_release cf row c (N.testbit word (N.of_nat c)) s else ([], s) in
      e1 = step_moves P (after_key word P) row c /\ holds_st s1 (put2 P row c (after_key word P row c))).
    { unfold step_moves, after_key. destruct (xorb (N.testbit word (N.of_nat c)) (fst (P row c))) eqn:EX.
      - pose proof (press_holds row c (N.testbit word (N.of_nat c)) s P H) as X. destruct (cn_press_or_release cf row c (N.testbit word (N.of_nat c)) s) as [e1 s1]. destruct X as [X1 X2]; [destruct (N.testbit word (N.of_nat c)), (fst (P row c)); try reflexivity; discriminate EX|].
        split; [|exact X2]. rewrite X1. destruct (fst (counts d (P row c) (N.testbit word (N.of_nat c)))), (fst (P row c)); reflexivity.
      - assert (EC : counts d (P row c) (N.testbit word (N.of_nat c)) = P row c) by (unfold counts; replace (Bool.eqb (N.testbit word (N.of_nat c)) (fst (P row c))) with true by (destruct (N.testbit word (N.of_nat c)), (fst (P row c)); try reflexivity; discriminate EX); reflexivity).
        rewrite EC, eqb_reflx. split; [reflexivity|]. apply (holds_ext s P); [|exact H]. intros r c'. unfold put2. destruct (Nat.eqb_spec r row) as [->|]; destruct (Nat.eqb_spec c' c) as [->|]; reflexivity. }
    clear HC0. destruct (if xorb (N.testbit word (N.of_nat c)) (fst (P row c)) then cn_press_or_release cf row c (N.testbit word (N.of_nat c)) s else ([], s)) as [e1 s1]. destruct K as [K1 K2].
    assert (PO : forall v c', In c' cs -> put2 P row c v row c' = P row c').
    { intros v c' I. unfold put2. rewrite Nat.eqb_refl. destruct (Nat.eqb_spec c' c) as [->|]; [contradiction|reflexivity]. }
    specialize (IH s1 (put2 P row c (after_key word P row c)) ND K2). destruct (cn_cols cf row word changed cs s1) as [e2 s2]. destruct IH as [I1 I2].
    { intros c' I. rewrite (PO _ c' I). apply HC. right. exact I. }
    split.
    + rewrite K1, I1. f_equal. apply flat_ext. intros c' I. unfold step_moves, after_key. rewrite (PO _ c' I). reflexivity.
    + refine (holds_ext s2 _ _ _ I2). intros r c'. cbn [existsb]. unfold put2, after_key. destruct (Nat.eqb_spec r row) as [->|NR]; cbn [andb]; [|reflexivity].
      destruct (Nat.eqb_spec c' c) as [->|NC]; cbn [orb]; [|reflexivity]. destruct (existsb (Nat.eqb c) cs) eqn:EX; [|reflexivity]. exfalso. apply existsb_exists in EX as [z [I E]]. apply Nat.eqb_eq in E. subst z. contradiction.
Qed.
Lemma rows_holds : forall C rd rows s P, NoDup rows -> holds_st s P ->
  let '(e, s1) := cn_rows cf C rd rows s in
  e = flat_map (fun r => flat_map (fun c => step_moves P (fun r c => after_key (rd r) P r c) r c) (seq 0 C)) rows /\
  holds_st s1 (fun r c => if existsb (Nat.eqb r) rows && (c <? C) then after_key (rd r) P r c else P r c).
Proof.
  intros C rd rows. induction rows as [|r rows IH]; intros s P ND H.
  - cbn [cn_rows flat_map existsb andb]. split; [reflexivity|exact H].
  - apply NoDup_cons_iff in ND as [NI ND]. cbn [cn_rows flat_map].
    pose proof (cols_holds r (rd r) (N.lxor (rd r) (cn_stable s r)) (seq 0 C) s P (seq_NoDup C 0) H) as K. destruct (cn_cols cf r (rd r) (N.lxor (rd r) (cn_stable s r)) (seq 0 C) s) as [e1 s1]. destruct K as [K1 K2].
    { intros c _. rewrite N.lxor_spec. f_equal. apply H. }
    set (P1 := fun r0 c0 => if (r0 =? r) && existsb (Nat.eqb c0) (seq 0 C) then after_key (rd r) P r0 c0 else P r0 c0) in *.
    assert (PO : forall r' c', In r' rows -> P1 r' c' = P r' c') by (intros r' c' I; unfold P1; destruct (Nat.eqb_spec r' r) as [->|]; [contradiction|reflexivity]).
    specialize (IH s1 P1 ND K2). destruct (cn_rows cf C rd rows s1) as [e2 s2]. destruct IH as [I1 I2]. split.
    + rewrite K1, I1. f_equal. apply flat_ext. intros r' I. apply flat_ext. intros c' _. unfold step_moves, after_key. rewrite (PO r' c' I). reflexivity.
    + refine (holds_ext s2 _ _ _ I2). intros r' c'. cbn [existsb]. unfold after_key.
      assert (SC : existsb (Nat.eqb c') (seq 0 C) = (c' <? C)).
      { destruct (Nat.ltb_spec c' C) as [L|L]; [apply existsb_exists; exists c'; split; [apply in_seq; lia|apply Nat.eqb_refl]|]. destruct (existsb (Nat.eqb c') (seq 0 C)) eqn:EX; [|reflexivity]. exfalso. apply existsb_exists in EX as [z [I E]]. apply Nat.eqb_eq in E. subst z. apply in_seq in I. clear -I L. lia. }
      destruct (Nat.eqb_spec r' r) as [->|NR]; cbn [orb].
      * destruct (existsb (Nat.eqb r) rows) eqn:EX; [exfalso; apply existsb_exists in EX as [z [I E]]; apply Nat.eqb_eq in E; subst z; contradiction|]. cbn [andb]. unfold P1. rewrite Nat.eqb_refl, SC. cbn [andb]. reflexivity.
      * unfold P1. destruct (Nat.eqb_spec r' r) as [X|_]; [contradiction|]. cbn [andb]. reflexivity.
Qed.
(** Where the scanner is after the scans [pre]. *)
Definition keys_after (R C : nat) (pre : list (nat -> N)) (r c : nat) : bool * nat :=
  if (r <? R) && (c <? C) then fold_left (counts d) (key_readings pre r c) (false, 0) else (false, 0).
Lemma scans_moves : forall R C rds pre s, holds_st s (keys_after R C pre) -> cn_scans cf R C rds s = all_moves d R C pre rds.
Proof.
  intros R C rds. induction rds as [|rd rds IH]; intros pre s H; [reflexivity|]. cbn [cn_scans all_moves].
  pose proof (rows_holds C rd (seq 0 R) s _ (seq_NoDup R 0) H) as K. destruct (cn_rows cf C rd (seq 0 R) s) as [e1 s1]. destruct K as [K1 K2].
  assert (KR : forall r c, key_readings (pre ++ [rd]) r c = key_readings pre r c ++ [N.testbit (rd r) (N.of_nat c)]) by (intros r c; unfold key_readings; rewrite map_app; reflexivity).
  f_equal.
  - rewrite K1. apply flat_ext. intros r Ir. apply flat_ext. intros c Ic. apply in_seq in Ir. apply in_seq in Ic. unfold step_moves, key_moves, after_key, keys_after, accepted. cbv zeta.
    replace ((r <? R) && (c <? C)) with true by (clear -Ir Ic; lia). rewrite KR, fold_left_app. reflexivity.
  - apply IH. refine (holds_ext s1 _ _ _ K2). intros r c. unfold after_key, keys_after. rewrite KR, fold_left_app. cbn [fold_left].
    assert (SR : existsb (Nat.eqb r) (seq 0 R) = (r <? R)).
    { destruct (Nat.ltb_spec r R) as [L|L]; [apply existsb_exists; exists r; split; [apply in_seq; lia|apply Nat.eqb_refl]|]. destruct (existsb (Nat.eqb r) (seq 0 R)) eqn:EX; [|reflexivity]. exfalso. apply existsb_exists in EX as [z [I E]]. apply Nat.eqb_eq in E. subst z. apply in_seq in I. clear -I L. lia. }
    rewrite SR. destruct ((r <? R) && (c <? C)); reflexivity.
Qed.
End Deb.

(** ** Debouncing: theorems *)
(** Whatever the debounce time: the keys activated and deactivated are, scan by
    scan and row by row, those whose readings that differ from the accepted
    state have reached the number [needed]. *)
Theorem C145_scanner : forall cf R C rds, cn_events cf R C rds = all_moves (needed (cf_debounce cf)) R C [] rds.
Proof.
  intros cf R C rds. apply scans_moves. intros r c. unfold keys_after. cbn [key_readings map fold_left].
  assert (X : (if (r <? R) && (c <? C) then (false, 0) else (false, 0)) = (false, 0)) by (destruct ((r <? R) && (c <? C)); reflexivity). rewrite X. cbn [fst snd cn_init cn_stable cn_count]. pose proof (needed_range (cf_debounce cf)) as NR.
  split; [apply N.bits_0|]. split; [rewrite Nat.sub_0_r, needed_left; reflexivity|lia].
Qed.
Print Assumptions C145_scanner.

(** What [accepted] means: from a point where the state changed (or the start),
    fewer than [d] differing readings leave it, the d-th one changes it. *)
Lemma counts_snoc : forall d l b, fold_left (counts d) (l ++ [b]) (false, 0) = counts d (fold_left (counts d) l (false, 0)) b.
Proof. intros d l b. rewrite fold_left_app. reflexivity. Qed.
Lemma counts_from : forall d l st n, n + differing st l < d -> fold_left (counts d) l (st, n) = (st, n + differing st l).
Proof.
  intros d l. induction l as [|b l IH]; intros st n H; [cbn [fold_left differing filter length]; unfold differing; cbn [filter length]; rewrite Nat.add_0_r; reflexivity|].
  cbn [fold_left]. unfold differing in *. cbn [filter] in *. unfold counts at 2. cbn [fst snd]. destruct (Bool.eqb b st) eqn:E; cbn [negb] in *; [apply IH; exact H|]. cbn [length] in *.
  destruct (Nat.eqb_spec (S n) d) as [X|X]; [clear -X H; lia|]. rewrite IH by (clear -H; lia). f_equal. clear. lia.
Qed.
Theorem C145_law : forall d pre mid b, 1 <= d -> (pre = [] \/ exists p x, pre = p ++ [x] /\ accepted d p <> accepted d pre) ->
  (differing (accepted d pre) mid < d -> accepted d (pre ++ mid) = accepted d pre) /\
  (differing (accepted d pre) mid = d - 1 -> b <> accepted d pre -> accepted d (pre ++ mid ++ [b]) = b).
Proof.
  intros d pre mid b D H.
  assert (Z : fold_left (counts d) pre (false, 0) = (accepted d pre, 0)).
  { destruct H as [-> | (p&x&->&NE)]; [reflexivity|]. unfold accepted in *. rewrite counts_snoc in *. destruct (fold_left (counts d) p (false, 0)) as [st n]. unfold counts in *. cbn [fst snd] in *. destruct (Bool.eqb x st) eqn:E; [cbn [fst] in NE; congruence|]. destruct (S n =? d); [reflexivity|]. cbn [fst] in NE. congruence. }
  split.
  - intros L. unfold accepted at 1. rewrite fold_left_app, Z, counts_from by exact L. reflexivity.
  - intros L NB. unfold accepted at 1. rewrite app_assoc, counts_snoc, fold_left_app, Z, counts_from by (clear -L D; lia). unfold counts. cbn [fst snd]. destruct (Bool.eqb b (accepted d pre)) eqn:E; [apply eqb_prop in E; congruence|].
    replace (S (0 + differing (accepted d pre) mid) =? d) with true by (clear -L D; lia). reflexivity.
Qed.
Print Assumptions C145_law.

(** With the time as shipped these are the transitions of C100. *)
Theorem C145_shipped : forall R C rds, cn_events shipped_config R C rds = transitions R C [] rds.
Proof.
  intros R C rds. rewrite C145_scanner. change (needed (cf_debounce shipped_config)) with 10.
  assert (X : forall l, accepted 10 l = fst (dstate l)).
  { assert (Y : forall l, fst (fold_left (counts 10) l (false, 0)) = fst (dstate l) /\ N.of_nat (snd (fold_left (counts 10) l (false, 0))) = (10 - snd (dstate l))%N /\ (1 <= snd (dstate l) <= 10)%N).
    { apply rev_ind; [split; [reflexivity|]; split; [reflexivity|vm_compute; split; discriminate]|]. intros b l (A&B&D). rewrite counts_snoc, dstate_snoc. destruct (fold_left (counts 10) l (false, 0)) as [st n]. destruct (dstate l) as [st' k]. cbn [fst snd] in *. subst st'. unfold counts, db. cbn [fst snd].
      destruct (Bool.eqb b st); [cbn [fst snd]; auto|]. replace (S n =? 10) with (k =? 1)%N by (clear -B D; lia). destruct (N.eqb_spec k 1) as [E|E]; cbn [fst snd]; (split; [reflexivity|]; clear -B D E; lia). }
    intros l. exact (proj1 (Y l)). }
  assert (G : forall rds pre, all_moves 10 R C pre rds = transitions R C pre rds).
  { intros l. induction l as [|rd l IH]; intros pre; [reflexivity|]. cbn [all_moves transitions]. rewrite IH. f_equal. unfold scan_events. apply flat_ext. intros r _. apply flat_ext. intros c _. unfold key_moves, PropEvents.key_event, accepted_after. cbv zeta. rewrite !X. reflexivity. }
  apply G.
Qed.
Print Assumptions C145_shipped.

(** Three readings with a debounce time of 3, the second key only twice. *)
Example C145_example :
  cn_events (mkConfig 3 true 525 66) 1 2 (map (fun x (_ : nat) => x) [1; 3; 0; 1; 3; 0; 0; 0])%N = [(0, 0, true); (0, 0, false)] /\ needed 3 = 3 /\
  cn_events (mkConfig 3 true 525 66) 1 2 (map (fun x (_ : nat) => x) [1; 3; 2; 1; 2])%N = [(0, 0, true); (0, 1, true)].
Proof. vm_compute. auto. Qed.

(** A debounce time of 0 does not switch debouncing off: it takes 256 readings,
    as it does with 256; with 300 it takes only 44. *)
Theorem C145_zero_refuted :
  ~ (forall cf R C rd rds, cf_debounce cf = 0%N -> exists t, cn_events cf R C (rd :: rds) = flat_map (fun r => flat_map (fun c => if N.testbit (rd r) (N.of_nat c) then [(r, c, true)] else []) (seq 0 C)) (seq 0 R) ++ t).
Proof. intros X. destruct (X (mkConfig 0 true 525 66) 1 1 (fun _ => 1%N) (repeat (fun _ => 1%N) 254) eq_refl) as [t E]. vm_compute in E. discriminate E. Qed.
Print Assumptions C145_zero_refuted.
Theorem C145_large_refuted : exists t : N, (t > 256)%N /\ needed t = 44 /\
  ~ (forall R C rds, cn_events (mkConfig t true 525 66) R C rds = all_moves (N.to_nat t) R C [] rds).
Proof.
  exists 300%N. split; [reflexivity|]. split; [reflexivity|]. intros X. specialize (X 1 1 (repeat (fun _ => 1%N) 44)). vm_compute in X. discriminate X.
Qed.
Print Assumptions C145_large_refuted.
