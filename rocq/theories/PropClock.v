(** How fast the main loop runs, and what that means for keys and messages:
    C83, C84, C85, C86. *)
From Coq Require Import List NArith ZArith Arith Bool Lia.
From Coq Require Import ZifyBool ZifyNat ZifyN.
From Verif Require Import Base Lib Buffer BufferSpec BufferProofs Repeat Devices DevSpec DevProofs
     Modifiers Hook KeymapData Asdf KeySpec KeyRef Obs Frames PropModState PropDebounce PropQueues PropHold PropTyping PropBounce.
From Verif Require Import System PropSystem Timed PropTimed.
Import ListNotations.

(** ** At most one long pulse in a scan *)
Definition is_long (e : event) : bool := match e with EvPulseLong => true | _ => false end.
Definition longs (l : list event) : nat := length (filter is_long l).
Lemma longs_app : forall l k, longs (l ++ k) = longs l + longs k.
Proof. intros. unfold longs. rewrite filter_app, app_length. reflexivity. Qed.
Lemma longs_rev : forall l, longs (rev l) = longs l.
Proof. induction l as [|e l IH]; [reflexivity|]. cbn [rev]. rewrite longs_app, IH, Nat.add_comm. change (e :: l) with ([e] ++ l). rewrite longs_app. reflexivity. Qed.
Lemma drive_longs : forall g l lv, longs (snd (drive g l lv)) = 0.
Proof.
  intros g. induction l as [|p l IH]; intros lv; [reflexivity|]. cbn [drive].
  specialize (IH (set_at lv p (g (lv p)))). destruct (drive g l (set_at lv p (g (lv p)))) as [l1 e1]. exact IH.
Qed.
Definition is_pulse_long (f : vfun) : bool := match f with V_PULSE_LONG => true | _ => false end.
Lemma action_longs : forall f l lv, longs (snd (spec_action f l lv)) <= if is_pulse_long f then 1 else 0.
Proof.
  intros f l lv. destruct f; cbn [spec_action is_pulse_long]; try (rewrite drive_longs; lia); try (cbn; lia).
  - pose proof (drive_longs opposite l lv) as A. destruct (drive opposite l lv) as [l1 e1].
    pose proof (drive_longs opposite l l1) as B. destruct (drive opposite l l1) as [l2 e2]. cbn [snd] in *.
    rewrite longs_app. change (EvPulseShort :: e2) with ([EvPulseShort] ++ e2). rewrite longs_app, A, B. reflexivity.
  - pose proof (drive_longs opposite l lv) as A. destruct (drive opposite l lv) as [l1 e1].
    pose proof (drive_longs opposite l l1) as B. destruct (drive opposite l l1) as [l2 e2]. cbn [snd] in *.
    rewrite longs_app. change (EvPulseLong :: e2) with ([EvPulseLong] ++ e2). rewrite longs_app, A, B. reflexivity.
Qed.
Lemma aact_longs : forall f v a, longs (a_log (aact f v a)) <= longs (a_log a) + if is_pulse_long f then 1 else 0.
Proof.
  intros. unfold aact. pose proof (action_longs f (own (wiring (a_cur a)) v) (a_lev a)) as H.
  destruct (spec_action _ _ _) as [lv ev]. cbn [a_log put_log snd] in *. rewrite longs_app, longs_rev. lia.
Qed.
Definition set_fun (b : bool) : vfun := if b then V_SET_HI else V_SET_LO.
Lemma aact_set : forall b v a, longs (a_log (aact (set_fun b) v a)) <= longs (a_log a).
Proof. intros b v a. pose proof (aact_longs (set_fun b) v a) as H. destruct b; cbn [set_fun is_pulse_long] in *; lia. Qed.
Lemma shift_longs : forall x a, longs (a_log (aset_shift x a)) <= longs (a_log a).
Proof. intros x a. unfold aset_shift. cbn zeta. cbn [a_log put_mod]. apply (aact_set (N.testbit x 1)). Qed.
Lemma caps_longs : forall a, longs (a_log (atoggle_caps a)) <= longs (a_log a).
Proof.
  intros a. unfold atoggle_caps. cbn zeta. cbn [a_log put_mod].
  pose proof (aact_set (negb (N.lxor (m_caps (a_mod a)) 1 =? 0)%N) VCAPS_LED a) as H. unfold set_fun in H.
  destruct (N.lxor (m_caps (a_mod a)) 1 =? 0)%N; exact H.
Qed.
Lemma select_longs : forall i a, longs (a_log (aselect i a)) <= longs (a_log a).
Proof.
  intros i a. unfold aselect. destruct (_ =? _)%N; [lia|]. destruct (_ <? _)%N; [|lia]. unfold aswitch. cbn zeta.
  set (a1 := note EvArchInit _). assert (X : longs (a_log a1) = longs (a_log a)) by reflexivity.
  assert (Y : longs (a_log (if toggles_caps i then atoggle_caps a1 else a1)) <= longs (a_log a)).
  { destruct (toggles_caps i); [|lia]. pose proof (caps_longs a1). lia. }
  destruct (i =? 4)%N; [|exact Y]. unfold longs in *. cbn [a_log note put_log filter is_long]. exact Y.
Qed.
(** The codes that make a long pulse on keyboard [k]. *)
Definition long_code (k code : N) : bool :=
  match decode code with
  | AVled n => is_pulse_long (fn (wiring k) (6 + n))
  | AVout n => is_pulse_long (fn (wiring k) n)
  | _ => false
  end.
Lemma on_longs : forall code a, longs (a_log (aaction_on code a)) <= longs (a_log a) + if long_code (a_cur a) code then 1 else 0.
Proof.
  intros code a. unfold aaction_on, long_code. destruct (decode code).
  all: try (cbn [a_log put_rep aset_ctrl put_mod note put_log]; unfold longs; cbn [filter is_long]; lia).
  all: try (match goal with |- longs (a_log (aset_shift ?x ?y)) <= _ => pose proof (shift_longs x y); lia end).
  all: try apply aact_longs.
  all: try (pose proof (caps_longs a); lia).
  all: try (match goal with |- longs (a_log (aselect ?x ?y)) <= _ => pose proof (select_longs x y); lia end).
  destruct (message _ _); unfold aprint; cbn [a_log put_qm]; lia.
Qed.
Lemma off_longs : forall code a, longs (a_log (aaction_off code a)) <= longs (a_log a).
Proof.
  intros code a. unfold aaction_off. destruct (decode code).
  all: try (cbn [a_log put_rep aset_ctrl put_mod note put_log]; unfold longs; cbn [filter is_long]; lia).
  all: try (match goal with |- longs (a_log (aset_shift ?x ?y)) <= _ => pose proof (shift_longs x y); lia end).
  all: match goal with |- longs (a_log (aselect ?x ?y)) <= _ => pose proof (select_longs x y); lia end.
Qed.
Lemma press_longs : forall code a, longs (a_log (apress code a)) <= longs (a_log a) + if long_code (a_cur a) code then 1 else 0.
Proof.
  intros code a. unfold apress. destruct (0xA0 <? code)%N; [apply on_longs|]. cbn zeta.
  destruct (a_last a =? code)%N; cbn [a_log put_rep put_last put_qk]; lia.
Qed.
Lemma release_longs : forall code a, longs (a_log (arelease code a)) <= longs (a_log a).
Proof.
  intros code a. unfold arelease. destruct (0xA0 <? code)%N; [apply off_longs|]. destruct (a_last a =? code)%N; cbn [a_log put_last]; lia.
Qed.

(** The one key with such a code. *)
Definition long_key (k : N) (r c : nat) : bool := if (k <? 2)%N then (r =? 2) && (c =? 0) else (r =? 6) && (c =? 2).
Definition hit (k : N) (r c : nat) : nat := if long_key k r c then 1 else 0.
Definition long_codes (k : N) (m r c : nat) (code : N) : bool := implb (long_code k code) (long_key k r c).
Lemma long_codes_ok : all_codes long_codes = true.
Proof. vm_compute. reflexivity. Qed.

Lemma key_longs : forall rd r c a b, key_step rd r c a = Some b -> r < 9 \/ (4 <= a_cur a)%N -> c < 8 -> last_low a ->
  longs (a_log b) <= longs (a_log a) + hit (a_cur a) r c /\ last_low b /\ (r < 8 -> a_cur b = a_cur a) /\
  ((4 <= a_cur a)%N -> longs (a_log b) <= longs (a_log a)).
Proof.
  intros rd r c a b H HR Hc LL. apply key_step_cases in H. destruct H.
  - split; [lia|]. auto.
  - cbn [a_log put_ct a_cur]. split; [lia|]. auto.
  - rewrite held_log, held_cur by auto. split; [lia|]. split; [apply held_last_low; auto|]. auto.
  - destruct HR as [HR|HR]; [|lia].
    pose proof (code_now_check _ long_codes_ok a r c H HR Hc) as LC. pose proof (code_now_check _ sel_codes_ok a r c H HR Hc) as SC.
    pose proof (press_longs (code_now a r c) (accept r c true a)) as PL. cbn [a_cur a_log accept put_dn put_ct] in PL.
    unfold long_codes in LC. unfold hit. split; [|split; [apply press_last_low; exact LL|split; [|lia]]].
    + destruct (long_code (a_cur a) (code_now a r c)); cbn [implb] in LC; [rewrite LC|]; destruct (long_key (a_cur a) r c); lia.
    + intros R8. rewrite press_cur; [reflexivity|]. intros n E. unfold sel_codes in SC. rewrite E in SC. lia.
  - destruct HR as [HR|HR]; [|lia]. pose proof (code_now_check _ sel_codes_ok a r c H HR Hc) as SC.
    pose proof (release_longs (code_now a r c) (accept r c false a)) as PL. cbn [a_log accept put_dn put_ct] in PL.
    split; [|split; [apply release_last_low; exact LL|split; [|lia]]].
    + lia.
    + intros R8. rewrite release_cur; [reflexivity|]. intros n E. unfold sel_codes in SC. rewrite E in SC. lia.
Qed.

Definition hits (k : N) (ps : list (nat * nat)) : nat := list_sum (map (fun p => hit k (fst p) (snd p)) ps).
Lemma keys_longs : forall rd ps a b, keys_step rd ps a = Some b -> Forall (fun p => fst p < 8 /\ snd p < 8) ps -> last_low a ->
  longs (a_log b) <= longs (a_log a) + hits (a_cur a) ps /\ last_low b /\ a_cur b = a_cur a.
Proof.
  intros rd. induction ps as [|[r c] ps IH]; intros a b H HF LL; cbn [keys_step] in H.
  - inv H. split; [lia|auto].
  - apply obind_some in H. destruct H as [x [E H]]. inv HF. cbn [fst snd] in *.
    destruct (key_longs _ _ _ _ _ E ltac:(lia) ltac:(lia) LL) as (X1&X2&X3&_). destruct (IH _ _ H ltac:(auto) X2) as (Y1&Y2&Y3).
    rewrite X3 in * by lia. split; auto. unfold hits in *. cbn [map list_sum fold_right fst snd] in *.
    change (fold_right Init.Nat.add 0) with list_sum in *. lia.
Qed.
Lemma last_row_longs : forall rd ps a b, keys_step rd ps a = Some b -> Forall (fun p => fst p = 8 /\ snd p < 8) ps -> last_low a ->
  longs (a_log b) <= longs (a_log a) /\ last_low b.
Proof.
  intros rd. induction ps as [|[r c] ps IH]; intros a b H HF LL; cbn [keys_step] in H.
  - inv H. split; [lia|auto].
  - apply obind_some in H. destruct H as [x [E H]]. inv HF. cbn [fst snd] in *.
    destruct (key_longs _ _ _ _ _ E ltac:(lia) ltac:(lia) LL) as (X1&X2&_). destruct (IH _ _ H ltac:(auto) X2) as (Y1&Y2).
    split; auto. replace (hit (a_cur a) r c) with 0 in X1; [lia|]. unfold hit, long_key. destruct H2 as [-> _].
    destruct (_ <? _)%N; reflexivity.
Qed.
Lemma high_longs : forall rd ps a b, keys_step rd ps a = Some b -> Forall (fun p => fst p < 16 /\ snd p < 8) ps -> last_low a ->
  (4 <= a_cur a < 6)%N -> longs (a_log b) <= longs (a_log a) /\ last_low b.
Proof.
  intros rd. induction ps as [|[r c] ps IH]; intros a b H HF LL HK; cbn [keys_step] in H.
  - inv H. split; [lia|auto].
  - apply obind_some in H. destruct H as [x [E H]]. inv HF. cbn [fst snd] in *.
    destruct (key_longs _ _ _ _ _ E ltac:(lia) ltac:(lia) LL) as (X1&X2&_&X4).
    destruct (key_step_rows _ _ _ _ _ E ltac:(lia)) as [C1 C2].
    destruct (IH _ _ H ltac:(auto) X2) as (Y1&Y2); [rewrite C2; lia|]. split; auto. specialize (X4 ltac:(lia)). lia.
Qed.
Lemma keys_app : forall rd p q a, keys_step rd (p ++ q) a = obind (keys_step rd p a) (keys_step rd q).
Proof.
  intros rd. induction p as [|[r c] p IH]; intros q a; [reflexivity|]. cbn [app keys_step].
  destruct (key_step rd r c a); cbn [obind]; auto.
Qed.
Lemma tick_longs : forall rd a b, atick rd a = Some b -> last_low a -> (a_cur a < 6)%N -> longs (a_log b) <= longs (a_log a) + 1.
Proof.
  intros rd a b H LL HC. unfold atick, ascan in H. apply obind_some in H. destruct H as [z [EZ H]].
  change (grid 0 9) with (grid 0 8 ++ grid 8 1) in EZ. rewrite keys_app in EZ. apply obind_some in EZ. destruct EZ as [y [EY EZ]].
  assert (L0 : longs (a_log (asend a)) = longs (a_log a)) by (send_case).
  assert (LL0 : last_low (asend a)) by (unfold last_low; rewrite send_last; exact LL).
  destruct (keys_longs _ _ _ _ EY (grid_bounds 0 8 8 ltac:(lia)) LL0) as (A1&A2&A3). rewrite send_cur in *.
  assert (B : Forall (fun p => fst p = 8 /\ snd p < 8) (grid 8 1)) by (repeat constructor; cbn; lia).
  destruct (last_row_longs _ _ _ _ EZ B A2) as (B1&B2).
  assert (HT : hits (a_cur a) (grid 0 8) <= 1).
  { unfold hits, hit, long_key. destruct (a_cur a <? 2)%N; vm_compute; lia. }
  assert (Z6 : (a_cur z < 6)%N).
  { destruct (keys_cur_high _ _ _ _ EZ ltac:(rewrite A3; auto)) as [C _]. exact C. }
  pose proof (rows_ge _ Z6) as NR. destruct (N.leb_spec 4 (a_cur z)).
  - destruct (high_longs _ _ _ _ H (grid_bounds 9 (nrows (a_cur z) - 9) 16 ltac:(lia)) B2 ltac:(lia)) as [D _]. lia.
  - rewrite rows_9, Nat.sub_diag in H by auto. change (grid 9 0) with (@nil (nat * nat)) in H.
    change (keys_step rd [] z) with (Some z) in H. inv H. lia.
Qed.

(** ** The length of a pass *)
Definition cost (e : event) : nat := match e with EvDelayMs d => N.to_nat d | EvPulseLong => 50 | _ => 0 end.
Lemma after_cost : forall l c, now (after l c) = now c + list_sum (map cost l).
Proof.
  induction l as [|e l IH]; intros c; [cbn; lia|]. change (after (e :: l) c) with (after l (spend e c)). rewrite IH.
  change (list_sum (map cost (e :: l))) with (cost e + list_sum (map cost l)). destruct e; cbn [spend pause now cost]; lia.
Qed.
Lemma silent_cost : forall l, Forall silent l -> list_sum (map cost l) = 50 * longs l.
Proof.
  induction 1 as [|e l HE HF IH]; [reflexivity|]. change (list_sum (map cost (e :: l))) with (cost e + list_sum (map cost l)).
  rewrite IH. change (e :: l) with ([e] ++ l). rewrite longs_app. destruct e; cbn in *; try contradiction; lia.
Qed.
(** One pass, step by step: what it sends, the time it takes. *)
Lemma one_pass : forall W n s c s' c', real W n = Ok (s, c) -> real W (S n) = Ok (s', c') ->
  exists t l, tick (reads_at W t) s = Ok s' /\ in_order t (now (wait c)) (now c') /\
    events s' = events s ++ tick_sends s ++ l /\ Forall silent l /\ longs l <= 1 /\
    c' = after l (after (tick_sends s) (wait c)) /\ exists T, run (readings_of W T n) = Ok s.
Proof.
  intros W n s c s' c' H H'. rewrite real_S, H in H'. cbn [bind fst snd] in H'.
  pose proof (real_run W n) as X. rewrite H in X. destruct X as (_&T&ER&_). destruct (reach _ _ ER) as [a [A R]].
  pose proof (watch_tick W (fun _ _ => 0%N) a s (wait c) R) as X. rewrite H' in X. destruct X as (t&l0&E&EV&EC&IO).
  destruct (C37_one_code_per_tick _ _ _ _ ER E) as [l [EV' SL]].
  assert (L0 : l0 = tick_sends s ++ l) by (apply (app_inv_head (events s)); congruence). subst l0.
  exists t, l. split; auto. split; auto. split; auto. split; auto. split.
  - pose proof (tick_sim (reads_at W t) a s R) as SM. rewrite E in SM. destruct (atick (reads_at W t) a) as [b|] eqn:EB; cbn [sim] in SM; [|congruence].
    destruct SM as [s1 [E1 RB]]. assert (s1 = s') by congruence. subst s1. pose proof (tick_longs _ _ _ EB (run_low _ _ A) (rl_lt _ _ R)) as TL.
    rewrite (events_ok _ _ RB), (events_ok _ _ R) in EV'.
    apply (f_equal longs) in EV'. rewrite !longs_app, !longs_rev in EV'. lia.
  - split; [rewrite EC; apply after_app|]. exists T. exact ER.
Qed.

Lemma pass_time : forall W n s c s' c', real W n = Ok (s, c) -> real W (S n) = Ok (s', c') ->
  now (wait c) <= now c' <= now (wait c) + 90 /\ S (now c) <= now c' + (if flag c then 1 else 0).
Proof.
  intros W n s c s' c' H H'. destruct (one_pass _ _ _ _ _ _ H H') as (t&l&_&_&_&SL&LL&EC&_).
  rewrite EC. rewrite !after_cost, (silent_cost _ SL).
  assert (X : list_sum (map cost (tick_sends s)) <= 40).
  { unfold tick_sends. destruct (msg_queue s); [|vm_compute; lia]. destruct (key_queue s) as [|x q]; [vm_compute; lia|].
    destruct (x <? 0xA0)%N; vm_compute; lia. }
  cbn [wait now]. destruct (flag c); lia.
Qed.
Lemma real_prefix : forall W n m s c, real W (n + m) = Ok (s, c) -> exists s0 c0, real W n = Ok (s0, c0).
Proof.
  intros W n. induction m as [|m IH]; intros s c H; [rewrite Nat.add_0_r in H; eauto|].
  rewrite Nat.add_succ_r, real_S in H. destruct (real W (n + m)) as [[s1 c1]|u]; [eauto|discriminate H].
Qed.
(** The flag is only set by an interrupt, and an interrupt takes a millisecond. *)
Lemma pause_flag : forall d c, flag (pause d c) = true -> flag c = true \/ now c < now (pause d c).
Proof. intros d c. unfold pause. cbn [flag now]. rewrite orb_true_iff, Nat.ltb_lt. intros [X|X]; [auto|right; lia]. Qed.
Lemma spend_flag : forall e c, flag (spend e c) = true -> flag c = true \/ now c < now (spend e c).
Proof. intros e c. destruct e; cbn [spend flag now]; try apply pause_flag; auto; discriminate. Qed.
Lemma after_flag : forall l c, flag (after l c) = true -> flag c = true \/ now c < now (after l c).
Proof.
  induction l as [|e l IH]; intros c H; [auto|]. change (after (e :: l) c) with (after l (spend e c)) in *.
  pose proof (spend_le e c). pose proof (after_le l (spend e c)). destruct (IH _ H) as [X|X]; [|lia].
  destruct (spend_flag _ _ X); auto. lia.
Qed.

Lemma clock_runs : forall W n s c, real W n = Ok (s, c) -> n + (if flag c then 1 else 0) <= now c.
Proof.
  intros W. induction n as [|n IH]; intros s c H.
  - destruct (real_0 W) as (s0&E&_). rewrite E in H. assert (c = clk0) by congruence. subst c. cbn. lia.
  - destruct (real_prefix W n 1 s c) as (s0&c0&E0); [rewrite Nat.add_1_r; exact H|]. specialize (IH _ _ E0).
    destruct (one_pass _ _ _ _ _ _ E0 H) as (t&l&_&_&_&SL&LL&EC&_). destruct (pass_time _ _ _ _ _ _ E0 H) as [P1 P2].
    destruct (flag c) eqn:F; [|destruct (flag c0); lia]. rewrite EC, <- after_app in F. apply after_flag in F.
    rewrite after_app, <- EC in F. cbn [wait flag now] in F. destruct F as [F|F]; [discriminate F|]. destruct (flag c0); lia.
Qed.
Lemma passes_time : forall W n m s c s' c', real W n = Ok (s, c) -> real W (n + m) = Ok (s', c') ->
  now c + m + (if flag c' then 1 else 0) <= now c' + (if flag c then 1 else 0) /\ now c' <= now c + 91 * m.
Proof.
  intros W n. induction m as [|m IH]; intros s c s' c' H H'.
  - rewrite Nat.add_0_r in H'. assert (c = c') by congruence. subst c'. lia.
  - destruct (real_prefix W (n + m) 1 s' c') as (s0&c0&E0); [rewrite Nat.add_1_r, <- Nat.add_succ_r; exact H'|].
    rewrite Nat.add_succ_r in H'. destruct (IH _ _ _ _ H E0) as [A B].
    destruct (one_pass _ _ _ _ _ _ E0 H') as (t&l&_&_&_&SL&LL&EC&_). destruct (pass_time _ _ _ _ _ _ E0 H') as [P1 P2].
    cbn [wait now] in P1. split; [|destruct (flag c0); lia].
    destruct (flag c') eqn:F; [|destruct (flag c0); lia]. rewrite EC, <- after_app in F. apply after_flag in F.
    rewrite after_app, <- EC in F. cbn [wait flag now] in F. destruct F as [F|F]; [discriminate F|]. destruct (flag c0); lia.
Qed.

(** ** C86 *)
Theorem C86_scan_rate : forall W n m s c s' c', real W n = Ok (s, c) -> real W (n + m) = Ok (s', c') ->
  now c + m <= now c' + 1 /\ now c' <= now c + 91 * m /\ n <= now c.
Proof.
  intros W n m s c s' c' H H'. destruct (passes_time _ _ _ _ _ _ _ H H') as [A B]. pose proof (clock_runs _ _ _ _ H).
  destruct (flag c), (flag c'); lia.
Qed.
Print Assumptions C86_scan_rate.

(** ** C84 *)
Lemma stamps_past : forall W n s c, real W n = Ok (s, c) -> Forall (fun p => fst p <= now c) (stamps c).
Proof.
  assert (SP : forall e c, Forall (fun p => fst p <= now c) (stamps c) -> Forall (fun p => fst p <= now (spend e c)) (stamps (spend e c))).
  { intros e c H. assert (K : forall k, now c <= k -> Forall (fun p => fst p <= k) (stamps c)).
    { intros k Hk. eapply Forall_impl; [|exact H]. cbn beta. intros; lia. }
    destruct e; cbn [spend pause now stamps]; try (apply K; lia). constructor; [cbn; lia|apply K; lia]. }
  assert (AP : forall l c, Forall (fun p => fst p <= now c) (stamps c) -> Forall (fun p => fst p <= now (after l c)) (stamps (after l c))).
  { induction l as [|e l IH]; intros c H; [exact H|]. apply IH. apply SP. exact H. }
  intros W. induction n as [|n IH]; intros s c H.
  - destruct (real_0 W) as (s0&E&_). rewrite E in H. assert (c = clk0) by congruence. subst c. constructor.
  - destruct (real_prefix W n 1 s c) as (s0&c0&E0); [rewrite Nat.add_1_r; exact H|]. specialize (IH _ _ E0).
    destruct (one_pass _ _ _ _ _ _ E0 H) as (t&l&_&_&_&_&_&EC&_). rewrite EC. apply AP. apply AP.
    cbn [wait stamps now]. eapply Forall_impl; [|exact IH]. cbn beta. intros p Hp. destruct (flag c0); lia.
Qed.
Lemma silent_stamps : forall l c, Forall silent l -> stamps (after l c) = stamps c.
Proof.
  intros l c H. revert c. induction H as [|e l HE HF IH]; intros c; [reflexivity|]. change (after (e :: l) c) with (after l (spend e c)).
  rewrite IH. destruct e; cbn in *; auto; contradiction.
Qed.
Theorem C84_message_spacing : forall W n s c x q s' c', real W n = Ok (s, c) -> msg_queue s = x :: q ->
  real W (S n) = Ok (s', c') ->
  exists t, stamps c' = (t, x) :: stamps c /\ Forall (fun p => fst p + 40 <= t) (stamps c) /\ now c + 40 <= t <= now c + 41.
Proof.
  intros W n s c x q s' c' H HQ H'. destruct (one_pass _ _ _ _ _ _ H H') as (t&l&_&_&_&SL&_&EC&_).
  exists (now (wait c) + 40). pose proof (stamps_past _ _ _ _ H) as P. split; [|split].
  - rewrite EC, silent_stamps by auto. unfold tick_sends. rewrite HQ. reflexivity.
  - eapply Forall_impl; [|exact P]. cbn beta. intros p Hp. cbn [wait now]. destruct (flag c); lia.
  - cbn [wait now]. destruct (flag c); lia.
Qed.
Print Assumptions C84_message_spacing.

(** ** C85 *)
(** The first of [l] at least 40 ms after [t], each at least 40 ms after the one before. *)
Fixpoint paced (t : nat) (l : list (nat * N)) : Prop :=
  match l with [] => True | (x, _) :: l' => t + 40 <= x /\ paced x l' end.
Lemma paced_later : forall l t t', paced t l -> t' <= t -> paced t' l.
Proof. intros [|[x y] l] t t'; cbn; intros; auto. split; [lia|tauto]. Qed.
(** A waiting message goes out at its pace whatever the keys do. *)
Theorem C85_message_paced_partial : forall W m n s c s' c', real W n = Ok (s, c) -> m <= length (msg_queue s) ->
  real W (n + m) = Ok (s', c') ->
  exists l, stamps c' = rev l ++ stamps c /\ map snd l = firstn m (msg_queue s) /\ paced (now c) l /\ now c' <= now c + 91 * m.
Proof.
  intros W. induction m as [|m IH]; intros n s c s' c' H HL H'.
  - rewrite Nat.add_0_r in H'. assert (c = c') by congruence. subst c'. exists []. cbn. split; auto. split; auto. split; auto. lia.
  - pose proof (passes_time _ _ _ _ _ _ _ H H') as [_ PT].
    rewrite Nat.add_succ_r, <- Nat.add_succ_l in H'. destruct (real_prefix W (S n) m s' c' H') as (s1&c1&E1).
    destruct (msg_queue s) as [|x q] eqn:MQ; [cbn in HL; lia|].
    destruct (one_pass _ _ _ _ _ _ H E1) as (t&k&ET&_&_&SL&_&EC&T&ER).
    destruct (tick_flow _ _ _ _ ER ET) as (s2&kn&mn&_&_&_&_&M1&M2&_).
    unfold leaving_m in M1. rewrite MQ in M1. cbn [firstn app] in M1. assert (Q : q = msg_queue s2) by congruence. rewrite <- Q in M2.
    destruct (C84_message_spacing _ _ _ _ _ _ _ _ H MQ E1) as (t1&S1&_&B1).
    cbn [length] in HL. destruct (IH (S n) s1 c1 s' c' E1) as (l&L1&L2&L3&_); [rewrite M2, app_length; lia|exact H'|].
    exists ((t1, x) :: l). split; [rewrite L1, S1; cbn [rev]; rewrite <- app_assoc; reflexivity|].
    split.
    + cbn [map snd firstn]. f_equal. rewrite L2, M2, firstn_app. replace (m - length q) with 0 by lia. cbn [firstn]. apply app_nil_r.
    + split; [|lia]. cbn [paced]. split; [lia|]. apply (paced_later l (now c1)); auto.
      pose proof (stamps_past _ _ _ _ E1) as P. rewrite S1 in P. inv P. cbn in H2. exact H2.
Qed.
Print Assumptions C85_message_paced_partial.

(** But a code typed while the message runs follows its last character at once. *)
Theorem C85_pause_after_message_refuted : exists W n s c t rest,
  real W n = Ok (s, c) /\ stamps c = (t, 112%N) :: (t, 13%N) :: rest /\ keys_sent s = [112%N] /\ last (msgs_sent s) 0%N = 13%N.
Proof.
  exists busy_world, 150. assert (X : seen (fun p => (firstn 2 (stamps (snd p)), keys_sent (fst p), last (msgs_sent (fst p)) 0%N)) (real busy_world 150) =
    Some ([(3451, 112%N); (3451, 13%N)], [112%N], 13%N)) by (vm_compute; reflexivity).
  destruct (real busy_world 150) as [[s c]|u]; cbn [seen fst snd] in X; [|discriminate X].
  destruct (stamps c) as [|a [|b rest]] eqn:ES; cbn [firstn] in X; try congruence.
  exists s, c, 3451, rest. split; [reflexivity|]. split; [congruence|]. split; congruence.
Qed.
Print Assumptions C85_pause_after_message_refuted.

(** ** C83 *)
Lemma dstate_stays : forall n l b, fst (dstate l) = b -> fst (dstate (l ++ repeat b n)) = b.
Proof.
  induction n as [|n IH]; intros l b H; cbn [repeat]; [rewrite app_nil_r; exact H|].
  change (b :: repeat b n) with ([b] ++ repeat b n). rewrite app_assoc. apply IH. rewrite dstate_snoc. unfold db.
  rewrite H, Bool.eqb_reflx. exact H.
Qed.
Lemma ten_passes : forall W n s c s' c' r k b, r < 9 -> k < 8 -> real W n = Ok (s, c) -> real W (n + 10) = Ok (s', c') ->
  (forall t, now c <= t <= now c' -> reading (W t) r k = b) -> down s' r k = b.
Proof.
  intros W n s c s' c' r k b Hr Hk H H' HW.
  assert (X : forall m s1 c1, real W (n + m) = Ok (s1, c1) -> now c1 <= now c' -> 
    exists pre mid, run pre = Ok s /\ run (pre ++ mid) = Ok s1 /\ length mid = m /\ Forall (fun rd => reading rd r k = b) mid).
  { induction m as [|m IH]; intros s1 c1 E HN.
    - rewrite Nat.add_0_r in E. assert (s1 = s) by congruence. subst s1. pose proof (real_run W n) as Y. rewrite H in Y. destruct Y as (_&T&Y&_).
      exists (readings_of W T n), []. rewrite app_nil_r. auto.
    - destruct (real_prefix W (n + m) 1 s1 c1) as (s0&c0&E0); [rewrite Nat.add_1_r, <- Nat.add_succ_r; exact E|].
      rewrite Nat.add_succ_r in E. destruct (one_pass _ _ _ _ _ _ E0 E) as (t&l&ET&[IO _]&_).
      pose proof (passes_time _ _ _ _ _ _ _ H E0) as [A _]. destruct (pass_time _ _ _ _ _ _ E0 E) as [P1 _].
      assert (N0 : now c0 <= now (wait c0)) by (cbn [wait now]; destruct (flag c0); lia).
      assert (N1 : now c <= now (wait c0)).
      { destruct m as [|m]; [rewrite Nat.add_0_r in E0; assert (c0 = c) by congruence; subst c0; exact N0|]. destruct (flag c), (flag c0); lia. }
      destruct (IH _ _ E0 ltac:(lia)) as (pre&mid&R1&R2&R3&R4). exists pre, (mid ++ [reads_at W t]). split; auto.
      rewrite app_assoc, (run_snoc_any _ _ _ R2). split; auto. rewrite app_length, R3. split; [cbn; lia|].
      apply Forall_app. split; auto. constructor; [|constructor]. unfold reads_at. specialize (IO r).
      rewrite <- (HW (t r)) by lia. reflexivity. }
  destruct (X 10 s' c' H' (Nat.le_refl _)) as (pre&mid&R1&R2&R3&R4). clear X H H' HW.
  rewrite (down_hist _ _ _ _ R2 Hr Hk), key_readings_app, (readings_all _ _ _ _ R4), R3.
  destruct (fst (dstate (key_readings pre r k))) eqn:EB; destruct b.
  - apply dstate_stays. exact EB.
  - rewrite dstate_stretch by auto. pose proof (dstate_range (key_readings pre r k)).
    replace (N.of_nat 10 <? snd (dstate (key_readings pre r k)))%N with false by lia. reflexivity.
  - rewrite dstate_stretch by auto. pose proof (dstate_range (key_readings pre r k)).
    replace (N.of_nat 10 <? snd (dstate (key_readings pre r k)))%N with false by lia. reflexivity.
  - apply dstate_stays. exact EB.
Qed.
(** The pass that crosses time [t]. *)
Lemma crossing : forall W t N s c, real W N = Ok (s, c) -> t <= now c ->
  exists n s1 c1, n <= N /\ real W n = Ok (s1, c1) /\ t <= now c1 <= t + 91.
Proof.
  intros W t. induction N as [|N IH]; intros s c H HN.
  - exists 0, s, c. split; auto. split; auto. destruct (real_0 W) as (s0&E&_). rewrite E in H.
    assert (c = clk0) by congruence. subst c. cbn [clk0 now] in *. lia.
  - destruct (real_prefix W N 1 s c) as (s0&c0&E0); [rewrite Nat.add_1_r; exact H|].
    destruct (Nat.le_gt_cases t (now c0)) as [L|L].
    + destruct (IH _ _ E0 L) as (n&s1&c1&A&B&C). exists n, s1, c1. split; [lia|]. auto.
    + exists (S N), s, c. split; auto. split; auto. destruct (pass_time _ _ _ _ _ _ E0 H) as [P _].
      cbn [wait now] in P. destruct (flag c0); lia.
Qed.
Theorem C83_one_second_partial : forall W r k t0 N s c b, r < 9 -> k < 8 ->
  (forall t, t0 <= t <= t0 + 1001 -> reading (W t) r k = b) -> real W N = Ok (s, c) -> t0 + 1001 <= now c ->
  exists n s' c', n <= N /\ real W n = Ok (s', c') /\ t0 <= now c' <= t0 + 1001 /\ down s' r k = b.
Proof.
  intros W r k t0 N s c b Hr Hk HW H HN.
  destruct (crossing W t0 N s c H ltac:(lia)) as (n&s1&c1&A&B&C).
  assert (L : n + 10 <= N).
  { destruct (Nat.le_gt_cases (n + 10) N) as [L|L]; [exact L|exfalso].
    replace N with (n + (N - n)) in H by lia. destruct (passes_time _ _ _ _ _ _ _ B H) as [_ P]. lia. }
  assert (X : exists s2 c2, real W (n + 10) = Ok (s2, c2)).
  { apply (real_prefix W (n + 10) (N - (n + 10)) s c). rewrite <- H. f_equal. lia. }
  destruct X as (s2&c2&E2). destruct (passes_time _ _ _ _ _ _ _ B E2) as [P1 P2].
  assert (Q : now c1 <= now c2) by (destruct (flag c1), (flag c2); lia).
  exists (n + 10), s2, c2. split; auto. split; auto. split; [lia|].
  apply (ten_passes W n s1 c1 s2 c2); auto. intros t Ht. apply HW. lia.
Qed.
Print Assumptions C83_one_second_partial.
(** "p" held for 369 ms while the identification message runs is never seen down. *)
Definition short_world (t : nat) : nat -> N :=
  if t <=? 20 then matrix [(0, 6); (6, 6)] else if t <=? 1000 then matrix []
  else if t <=? 1369 then matrix [(1, 1)] else matrix [].
Theorem C83_short_press_refuted : exists s c,
  real short_world 150 = Ok (s, c) /\ 3500 <= now c /\ (forall t, 1000 < t <= 1369 -> reading (short_world t) 1 1 = true) /\
  k_cur s = 0%N /\ key_code s 1 1 = 112%N /\ ~ In 112%N (sent s) /\ key_queue s = [] /\ msg_queue s = [].
Proof.
  assert (X : seen (fun p => (3500 <=? now (snd p), k_cur (fst p), key_code (fst p) 1 1, existsb (N.eqb 112) (sent (fst p)), key_queue (fst p), msg_queue (fst p)))
    (real short_world 150) = Some (true, 0%N, 112%N, false, [], [])) by (vm_compute; reflexivity).
  destruct (real short_world 150) as [[s c]|u]; cbn [seen fst snd] in X; [|discriminate X].
  exists s, c. split; [reflexivity|]. split; [apply Nat.leb_le; congruence|]. split.
  - intros t Ht. unfold short_world. replace (t <=? 20) with false by lia. replace (t <=? 1000) with false by lia.
    replace (t <=? 1369) with true by lia. reflexivity.
  - split; [congruence|]. split; [congruence|]. split; [|split; congruence].
    intros IN. assert (E : existsb (N.eqb 112) (sent s) = true) by (apply existsb_exists; exists 112%N; split; [exact IN|reflexivity]).
    congruence.
Qed.
Print Assumptions C83_short_press_refuted.

(** ** C87 *)
(** When the [i]-th code of a key held from rest is due, in milliseconds after the
    first closed reading less one ([k] readings to accept the press). *)
Definition due_at (k i : nat) : nat := match i with 0 => k + 1 | S j => k + 526 + 66 * j end.
Lemma typed_step : forall k m, typed k (S m) = typed k m \/ (typed k (S m) = S (typed k m) /\ S m = due_at k (typed k m)).
Proof.
  intros k m. unfold typed. destruct (Nat.leb_spec (S m) k) as [L|L].
  { left. replace (m <=? k) with true by lia. reflexivity. }
  destruct (Nat.leb_spec m k) as [L1|L1].
  { right. replace (S m <=? k + 525) with true by lia. cbn. split; lia. }
  destruct (Nat.leb_spec (S m) (k + 525)) as [L2|L2].
  { left. replace (m <=? k + 525) with true by lia. reflexivity. }
  destruct (Nat.leb_spec m (k + 525)) as [L3|L3].
  { right. replace (S m - (k + 526)) with 0 by lia. cbn. split; lia. }
  replace (S m - (k + 526)) with (S (m - (k + 526))) by lia. generalize (m - (k + 526)) (Nat.sub_add (k + 526) m ltac:(lia)).
  intros x Hx. pose proof (Nat.div_mod x 66 ltac:(lia)) as D1. pose proof (Nat.mod_upper_bound x 66 ltac:(lia)) as B1.
  pose proof (Nat.div_mod (S x) 66 ltac:(lia)) as D2. pose proof (Nat.mod_upper_bound (S x) 66 ltac:(lia)) as B2.
  cbn [due_at Nat.add]. change (S (S (x / 66))) with (2 + x / 66). lia.
Qed.
Theorem C87_autorepeat_in_real_time : forall W n s c r k m, real W n = Ok (s, c) -> flag c = false ->
  (k_cur s < 4)%N -> r < 9 -> k < 8 -> down s r k = false -> (key_code s r k < 0xA0)%N -> k_last s = 0xA0%N ->
  key_queue s = [] -> msg_queue s = [] -> r_state (k_rep s) = RAuto -> others_differ s r k -> others_coded s r k ->
  (forall t, now c < t <= now c + m -> also s r k (W t)) ->
  exists s' c', real W (n + m) = Ok (s', c') /\ now c' = now c + m /\ flag c' = false /\
    stamps c' = rev (map (fun i => (now c + due_at (count s r k) i, key_code s r k)) (seq 0 (typed (count s r k) m))) ++ stamps c.
Proof.
  intros W n s c r k m H HF Hk Hr Hc D LOW HL HQK HQM HT HO HA HW.
  assert (X : forall j, j <= m -> exists s' c', real W (n + j) = Ok (s', c') /\ now c' = now c + j /\ flag c' = false /\
    sent s' = sent s ++ repeat (key_code s r k) (typed (count s r k) j)).
  { intros j Hj. pose proof (real_run W n) as X. rewrite H in X. destruct X as (_&T&ER&_).
    destruct (C29_hold_from_rest _ s r k (map W (seq (S (now c)) j)) ER Hk Hr Hc D LOW HL HQK HQM HT HO HA) as (s'&E&EV&ES).
    { apply Forall_forall. intros rd IN. apply in_map_iff in IN. destruct IN as [t [<- IN]]. apply in_seq in IN. apply HW. lia. }
    rewrite map_length, seq_length in EV, ES.
    destruct (quiet_ticks W j n s c s' _ H HF E EV) as (c'&E'&N'&F').
    { apply Forall_forall. intros e IN. apply repeat_spec in IN. subst e. exact I. }
    exists s', c'. auto. }
  clear D LOW HL HQK HQM HT HO HA HW. revert X. generalize (key_code s r k) (count s r k). intros code q. clear Hk Hr Hc r k.
  induction m as [|m IH]; intros X.
  - rewrite Nat.add_0_r. exists s, c. split; [exact H|]. split; [lia|]. split; [exact HF|].
    unfold typed. replace (0 <=? q) with true by lia. reflexivity.
  - destruct (IH ltac:(intros; apply X; lia)) as (s1&c1&E1&N1&F1&S1). destruct (X m ltac:(lia)) as (s1'&c1'&E1'&_&_&ES1).
    assert (s1' = s1) by congruence. subst s1'. clear E1' c1'.
    destruct (X (S m) ltac:(lia)) as (s2&c2&E2&N2&F2&ES2). exists s2, c2. split; auto. split; auto. split; auto.
    rewrite Nat.add_succ_r in E2. destruct (one_pass _ _ _ _ _ _ E1 E2) as (t&l&_&_&EV&SL&_&EC&_). clear X IH.
    assert (TS : exists o, tick_sends s1 = map EvSend o).
    { unfold tick_sends in *. destruct (msg_queue s1) as [|y z].
      - destruct (key_queue s1) as [|y z]; [exists []; reflexivity|]. destruct (y <? 0xA0)%N; [exists [y]|exists []]; reflexivity.
      - exfalso. rewrite EC, after_cost, after_cost in N2. cbn [map cost list_sum fold_right wait now] in N2. destruct (flag c1); lia. }
    destruct TS as [o TS]. rewrite TS in *.
    assert (LEN : length o <= 1).
    { assert (Y : length (tick_sends s1) <= 2) by (unfold tick_sends; destruct (msg_queue s1); [destruct (key_queue s1); [|destruct (_ <? _)%N]|]; cbn; lia).
      unfold tick_sends in TS. destruct (msg_queue s1); [|destruct o as [|? [|? ?]]; discriminate TS].
      destruct (key_queue s1); [destruct o; [cbn; lia|discriminate TS]|]. destruct (_ <? _)%N; destruct o as [|? [|? ?]]; cbn; try lia; discriminate TS. }
    assert (SO : repeat code (typed q (S m)) = repeat code (typed q m) ++ o).
    { apply (app_inv_head (sent s)). rewrite <- ES2, app_assoc, <- ES1. unfold sent. rewrite EV, !sends_app, (silent_sends _ SL), app_nil_r.
      f_equal. clear. induction o as [|x o IH]; [reflexivity|]. cbn. f_equal. exact IH. }
    assert (ST : stamps c2 = map (fun x => (S (now c1), x)) o ++ stamps c1).
    { rewrite EC, silent_stamps by auto. unfold wait. rewrite F1. destruct o as [|x [|y o]]; [reflexivity|reflexivity|cbn in LEN; lia]. }
    rewrite ST, S1, app_assoc. f_equal. pose proof (f_equal (@length N) SO) as LO. rewrite app_length, !repeat_length in LO.
    destruct (typed_step q m) as [TY|[TY DU]].
    + rewrite TY in *. destruct o; [reflexivity|cbn in LO; lia].
    + rewrite TY in *. destruct o as [|x [|y o]]; try (cbn in LO; lia). rewrite seq_S, map_app, rev_app_distr. cbn [map rev app Nat.add].
      f_equal. f_equal; [lia|]. cbn [repeat] in SO. rewrite repeat_cons in SO. apply app_inj_tail in SO. destruct SO; auto.
Qed.
Print Assumptions C87_autorepeat_in_real_time.

(** ** Examples *)
(** The key of [short_world] held 1002 ms instead is seen within that time (and typed
    when the message has ended). *)
Definition long_world (t : nat) : nat -> N :=
  if t <=? 20 then matrix [(0, 6); (6, 6)] else if t <=? 1000 then matrix []
  else if t <=? 2002 then matrix [(1, 1)] else matrix [].
Example C83_example :
  (forall t, 1001 <= t <= 1001 + 1001 -> reading (long_world t) 1 1 = true) /\
  seen (fun p => (now (snd p), down (fst p) 1 1)) (real long_world 43) = Some (1331, false) /\
  seen (fun p => (now (snd p), down (fst p) 1 1)) (real long_world 44) = Some (1371, true) /\
  seen (fun p => skipn 86 (sent (fst p))) (real long_world 150) = Some [112%N].
Proof.
  split; [|vm_compute; repeat split]. intros t Ht. unfold long_world. replace (t <=? 20) with false by lia.
  replace (t <=? 1000) with false by lia. replace (t <=? 2002) with true by lia. reflexivity.
Qed.
(** A message half way, with its next character and the pass that sends it. *)
Example C84_example :
  seen (fun p => (now (snd p), firstn 2 (msg_queue (fst p)), hd_error (stamps (snd p)))) (real busy_world 30) = Some (811, [48; 41]%N, Some (811, 40%N)) /\
  seen (fun p => (now (snd p), hd_error (stamps (snd p)))) (real busy_world 31) = Some (851, Some (851, 48%N)).
Proof. vm_compute. repeat split. Qed.
(** A pass of 91 ms: the key with the long pulse, SHIFT and (2, 0), is accepted in the
    pass that sends the first character of a message (CTRL is released in that pass). *)
Definition slow_world (t : nat) : nat -> N :=
  if t <=? 20 then matrix [(0, 1); (0, 6)] else if t <=? 21 then matrix [(0, 1); (0, 6); (6, 6)] else matrix [(0, 1); (6, 6); (2, 0)].
Example C86_example :
  seen (fun p => now (snd p)) (real slow_world 30) = Some 30 /\
  seen (fun p => now (snd p)) (real slow_world 31) = Some (30 + 91).
Proof. vm_compute. repeat split. Qed.
Example C85_example :
  seen (fun p => (now (snd p), length (msg_queue (fst p)), firstn 4 (msg_queue (fst p)))) (real busy_world 30) = Some (811, 66, [48; 41; 41; 58]%N) /\
  seen (fun p => firstn 4 (stamps (snd p))) (real busy_world (30 + 4)) = Some [(971, 58%N); (931, 41%N); (891, 41%N); (851, 48%N)].
Proof. vm_compute. repeat split. Qed.
(** "p" held from 4 ms on. *)
Definition held_world (t : nat) : nat -> N := if t <=? 3 then matrix [] else matrix [(1, 1)].
Example C87_example :
  seen (fun p => (now (snd p), flag (snd p), key_code (fst p) 1 1, k_last (fst p), count (fst p) 1 1, r_state (k_rep (fst p)))) (real held_world 3) =
    Some (3, false, 112%N, 0xA0%N, 10, RAuto) /\
  seen (fun p => stamps (snd p)) (real held_world (3 + 610)) = Some [(605, 112%N); (539, 112%N); (14, 112%N)] /\
  rev (map (fun i => (3 + due_at 10 i, 112%N)) (seq 0 (typed 10 610))) = [(605, 112%N); (539, 112%N); (14, 112%N)].
Proof. vm_compute. repeat split. Qed.
