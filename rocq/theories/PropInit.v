(** Initialisation from any previous contents of the variables: C49. *)
From Coq Require Import List NArith ZArith Arith Bool Lia.
From Coq Require Import ZifyBool ZifyNat ZifyN.
From Verif Require Import Base Lib Buffer BufferSpec BufferProofs Repeat Devices DevSpec DevProofs
     Modifiers Hook KeymapData Asdf KeySpec KeyRef Obs Frames.
Import ListNotations.

(** ** Older events do not matter *)
Definition older (l : list event) (a : akb) : akb := put_log (a_log a ++ l) a.

Lemma older_act : forall l f v a, aact f v (older l a) = older l (aact f v a).
Proof.
  intros. unfold aact. cbn [a_cur a_lev older put_log]. destruct (spec_action _ _ _) as [lv ev].
  unfold older. cbn [a_log put_log put_lev a_dn a_ct a_last a_qk a_qm a_rep a_mod a_lev a_cur]. rewrite app_assoc. reflexivity.
Qed.
Lemma older_note : forall l e a, note e (older l a) = older l (note e a).
Proof. reflexivity. Qed.
Lemma older_shift : forall l x a, aset_shift x (older l a) = older l (aset_shift x a).
Proof. intros. unfold aset_shift. cbv zeta. rewrite older_act. reflexivity. Qed.
Lemma older_caps : forall l a, atoggle_caps (older l a) = older l (atoggle_caps a).
Proof. intros. unfold atoggle_caps. cbv zeta. change (a_mod (older l a)) with (a_mod a). rewrite older_act. reflexivity. Qed.
Lemma older_switch : forall l i a, aswitch i (older l a) = older l (aswitch i a).
Proof.
  intros. unfold aswitch. cbv zeta.
  change (note EvArchInit (put_lev (lev (wiring i)) (put_cur i (older l a)))) with (older l (note EvArchInit (put_lev (lev (wiring i)) (put_cur i a)))).
  destruct (toggles_caps i); rewrite ?older_caps; destruct (i =? 4)%N; reflexivity.
Qed.
Lemma older_select : forall l i a, aselect i (older l a) = older l (aselect i a).
Proof.
  intros. unfold aselect. change (a_cur (older l a)) with (a_cur a). destruct (_ =? _)%N; auto.
  destruct (_ <? _)%N; auto. apply older_switch.
Qed.
Lemma older_on : forall l c a, aaction_on c (older l a) = older l (aaction_on c a).
Proof.
  intros. unfold aaction_on. change (a_cur (older l a)) with (a_cur a). change (a_mod (older l a)) with (a_mod a).
  destruct (decode c); auto using older_shift, older_caps, older_select, older_act.
  destruct (message _ _); reflexivity.
Qed.
Lemma older_off : forall l c a, aaction_off c (older l a) = older l (aaction_off c a).
Proof.
  intros. unfold aaction_off. change (a_cur (older l a)) with (a_cur a).
  destruct (decode c); auto using older_shift, older_select.
Qed.
Lemma older_press : forall l c a, apress c (older l a) = older l (apress c a).
Proof.
  intros. unfold apress. destruct (_ <? _)%N; [apply older_on|]. cbv zeta. change (a_last (older l a)) with (a_last a).
  destruct (_ =? _)%N; reflexivity.
Qed.
Lemma older_release : forall l c a, arelease c (older l a) = older l (arelease c a).
Proof.
  intros. unfold arelease. destruct (_ <? _)%N; [apply older_off|]. change (a_last (older l a)) with (a_last a).
  destruct (_ =? _)%N; reflexivity.
Qed.
Lemma older_held : forall l c a, aheld c (older l a) = older l (aheld c a).
Proof.
  intros. unfold aheld. change (a_last (older l a)) with (a_last a). change (a_rep (older l a)) with (a_rep a).
  destruct (_ =? _)%N; [|reflexivity]. destruct (repeat_tick (a_rep a)) as [[|] q]; [|reflexivity].
  apply (older_press l c (put_rep q a)).
Qed.
Lemma older_key : forall l rd r c a, key_step rd r c (older l a) = option_map (older l) (key_step rd r c a).
Proof.
  intros. unfold key_step. cbv zeta. change (a_dn (older l a)) with (a_dn a). change (a_ct (older l a)) with (a_ct a).
  destruct (Bool.eqb _ _).
  - destruct (reading rd r c); [|reflexivity]. unfold acode. change (a_cur (older l a)) with (a_cur a). change (a_mod (older l a)) with (a_mod a).
    destruct (_ <? _)%N; [|reflexivity]. cbn [obind option_map]. rewrite older_held. reflexivity.
  - destruct (_ =? _)%N; [|reflexivity].
    set (b := put_dn _ (put_ct _ a)). change (put_dn _ (put_ct _ (older l a))) with (older l b).
    unfold acode. change (a_cur (older l b)) with (a_cur b). change (a_mod (older l b)) with (a_mod b).
    destruct (_ <? _)%N; [|reflexivity]. cbn [obind option_map]. destruct (reading rd r c); rewrite ?older_press, ?older_release; reflexivity.
Qed.
Lemma older_keys : forall l rd ps a, keys_step rd ps (older l a) = option_map (older l) (keys_step rd ps a).
Proof.
  induction ps as [|[r c] ps IH]; intros a; [reflexivity|].
  change (obind (key_step rd r c (older l a)) (keys_step rd ps) = option_map (older l) (obind (key_step rd r c a) (keys_step rd ps))).
  rewrite older_key. destruct (key_step rd r c a); [|reflexivity]. cbn [option_map obind]. apply IH.
Qed.
Lemma older_send : forall l a, asend (older l a) = older l (asend a).
Proof.
  intros. unfold asend. change (a_qm (older l a)) with (a_qm a). change (a_qk (older l a)) with (a_qk a).
  destruct (a_qm a); [|reflexivity]. destruct (a_qk a); [reflexivity|]. destruct (_ <? _)%N; reflexivity.
Qed.
Lemma older_tick : forall l rd a, atick rd (older l a) = option_map (older l) (atick rd a).
Proof.
  intros. unfold atick, ascan. rewrite older_send, older_keys. destruct (keys_step rd (grid 0 9) (asend a)) as [b|]; [|reflexivity].
  cbn [option_map obind]. change (a_cur (older l b)) with (a_cur b). apply older_keys.
Qed.
Lemma older_ticks : forall l rds a, aticks rds (older l a) = option_map (older l) (aticks rds a).
Proof.
  induction rds as [|rd rds IH]; intros a; [reflexivity|]. cbn [aticks]. rewrite older_tick.
  destruct (atick rd a); [|reflexivity]. cbn [option_map obind]. apply IH.
Qed.
Lemma older_init : forall m l, ainit m l = older l (ainit m []).
Proof. reflexivity. Qed.

(** ** C49 *)
(** Everything that can be observed of a state, apart from past events. *)
Record looks_same (s1 s2 : kb) : Prop := mkSame {
  ls_down : forall r c, r < 16 -> c < 8 -> down s1 r c = down s2 r c;
  ls_cnt : forall i, nth_error (k_cnt s1) i = nth_error (k_cnt s2) i;
  ls_last : k_last s1 = k_last s2;
  ls_keyq : key_queue s1 = key_queue s2;
  ls_msgq : msg_queue s1 = msg_queue s2;
  ls_rep : k_rep s1 = k_rep s2;
  ls_mod : k_mod s1 = k_mod s2;
  ls_cur : k_cur s1 = k_cur s2;
  ls_maps : k_maps s1 = k_maps s2;
  ls_hook : k_hook s1 = k_hook s2
}.

Lemma rel_same : forall a b s1 s2, Rel a s1 -> Rel b s2 -> put_log [] a = put_log [] b -> looks_same s1 s2.
Proof.
  intros a b s1 s2 R1 R2 E.
  assert (E1 : a_dn a = a_dn b) by exact (f_equal a_dn E). assert (E2 : a_ct a = a_ct b) by exact (f_equal a_ct E).
  assert (E3 : a_last a = a_last b) by exact (f_equal a_last E). assert (E4 : a_qk a = a_qk b) by exact (f_equal a_qk E).
  assert (E5 : a_qm a = a_qm b) by exact (f_equal a_qm E). assert (E6 : a_rep a = a_rep b) by exact (f_equal a_rep E).
  assert (E7 : a_mod a = a_mod b) by exact (f_equal a_mod E). assert (E8 : a_cur a = a_cur b) by exact (f_equal a_cur E).
  constructor.
  - intros. rewrite (down_ok _ _ _ _ R1), (down_ok _ _ _ _ R2), E1; auto.
  - intros i. destruct (nth_error (k_cnt s1) i) as [v|] eqn:V.
    + assert (HI : i < length (k_cnt s2)).
      { rewrite (rl_cntlen _ _ R2), <- (rl_cntlen _ _ R1). apply nth_error_Some. congruence. }
      destruct (nth_error_ex _ _ _ HI) as [w W]. rewrite W.
      assert (D := Nat.div_mod i 8 ltac:(lia)). assert (M := Nat.mod_upper_bound i 8 ltac:(lia)).
      rewrite D, Nat.mul_comm in V, W. destruct (rl_cnt _ _ R1 _ _ _ M V) as [-> _]. destruct (rl_cnt _ _ R2 _ _ _ M W) as [-> _].
      rewrite E2. auto.
    + symmetry. apply nth_error_None. rewrite (rl_cntlen _ _ R2), <- (rl_cntlen _ _ R1). apply nth_error_None. auto.
  - rewrite (rl_last _ _ R1), (rl_last _ _ R2). auto.
  - rewrite (key_queue_ok _ _ R1), (key_queue_ok _ _ R2). auto.
  - rewrite (msg_queue_ok _ _ R1), (msg_queue_ok _ _ R2). auto.
  - rewrite (rl_rep _ _ R1), (rl_rep _ _ R2). auto.
  - rewrite (rl_mod _ _ R1), (rl_mod _ _ R2). auto.
  - rewrite (rl_cur _ _ R1), (rl_cur _ _ R2). auto.
  - rewrite (rl_maps _ _ R1), (rl_maps _ _ R2), E8. auto.
  - rewrite (rl_hook _ _ R1), (rl_hook _ _ R2), E8. auto.
Qed.

(** Initialisation succeeds whatever the variables contain, and leaves: no key
    down, counters full, both queues empty, nothing repeating, autorepeat
    selected, keyboard 0; the modifiers are left as they were. *)
Theorem C49_init_state_partial : forall s, storage_ok s ->
  exists s', init s = Ok s' /\ (forall r c, r < 16 -> c < 8 -> down s' r c = false) /\
    k_cnt s' = repeat 10%N 128 /\ key_queue s' = [] /\ msg_queue s' = [] /\ k_last s' = 0xA0%N /\
    k_rep s' = mkRep RAuto RAuto 525 /\ k_cur s' = 0%N /\ k_mod s' = k_mod s /\ events s' = events s ++ [EvArchInit].
Proof.
  intros s H. destruct (init_sim s H) as [s' [E RL]]. exists s'. split; auto.
  split; [intros; rewrite (down_ok _ _ _ _ RL) by auto; reflexivity|].
  split.
  { apply nth_ext with (d := 0%N) (d' := 0%N); [rewrite (rl_cntlen _ _ RL), repeat_length; auto|].
    intros i Hi. destruct (nth_error_ex _ _ _ Hi) as [v V]. rewrite (nth_error_nth _ _ _ V).
    rewrite (rl_cntlen _ _ RL) in Hi.
    assert (D := Nat.div_mod i 8 ltac:(lia)). assert (M := Nat.mod_upper_bound i 8 ltac:(lia)).
    rewrite D, Nat.mul_comm in V. destruct (rl_cnt _ _ RL _ _ _ M V) as [-> _].
    symmetry. apply (repeat_spec 128 10%N). apply nth_In. rewrite repeat_length. auto. }
  split; [rewrite (key_queue_ok _ _ RL); reflexivity|]. split; [rewrite (msg_queue_ok _ _ RL); reflexivity|].
  split; [rewrite (rl_last _ _ RL); reflexivity|]. split; [rewrite (rl_rep _ _ RL); reflexivity|].
  split; [rewrite (rl_cur _ _ RL); reflexivity|]. split; [rewrite (rl_mod _ _ RL); reflexivity|].
  rewrite (events_ok _ _ RL). reflexivity.
Qed.
Print Assumptions C49_init_state_partial.

(** Two keyboards with the same modifiers behave the same after initialisation,
    on any input, whatever happened to them before. *)
Theorem C49_same_future_partial : forall s1 s2, storage_ok s1 -> storage_ok s2 -> k_mod s1 = k_mod s2 ->
  exists t1 t2, init s1 = Ok t1 /\ init s2 = Ok t2 /\ forall rds,
    match ticks rds t1, ticks rds t2 with
    | Ok u1, Ok u2 => looks_same u1 u2 /\ exists l, events u1 = events t1 ++ l /\ events u2 = events t2 ++ l
    | Bad x, Bad y => x = y
    | _, _ => False
    end.
Proof.
  intros s1 s2 H1 H2 EM. destruct (init_sim s1 H1) as [t1 [I1 R1]]. destruct (init_sim s2 H2) as [t2 [I2 R2]].
  exists t1, t2. split; auto. split; auto. intros rds. rewrite older_init in R1, R2. rewrite <- EM in R2.
  pose proof (ticks_sim rds _ _ R1) as X1. pose proof (ticks_sim rds _ _ R2) as X2. rewrite older_ticks in X1, X2.
  destruct (aticks rds (ainit (k_mod s1) [])) as [a|] eqn:A; cbn [option_map sim] in X1, X2.
  - destruct X1 as [u1 [-> U1]]. destruct X2 as [u2 [-> U2]]. split; [apply (rel_same _ _ _ _ U1 U2); reflexivity|].
    assert (G : exists l, a_log a = l ++ [EvArchInit]).
    { clear - A. assert (B : exists l0, a_log (ainit (k_mod s1) []) = l0 ++ [EvArchInit]) by (exists []; reflexivity).
      revert A B. generalize (ainit (k_mod s1) []) as b. induction rds as [|rd rds IH]; intros b A B.
      - cbn in A. inv A. auto.
      - cbn [aticks] in A. apply obind_some in A. destruct A as [b1 [E A]]. apply (IH b1); auto.
        assert (GR : exists l, a_log b1 = l ++ a_log b).
        { clear - E. assert (S0 : exists l, a_log (asend b) = l ++ a_log b).
          { unfold asend. destruct (a_qm b); [|exists [EvSend n; EvDelayMs 40]; reflexivity].
            destruct (a_qk b); [exists []; reflexivity|]. destruct (_ <? _)%N; [exists [EvSend n]|exists []]; reflexivity. }
          unfold atick, ascan in E. apply obind_some in E. destruct E as [z [EZ E]].
          assert (KG : forall rd ps x y, keys_step rd ps x = Some y -> exists l, a_log y = l ++ a_log x).
          { clear. induction ps as [|[r c] ps IH]; intros x y E; [cbn in E; inv E; exists []; reflexivity|].
            change (obind (key_step rd r c x) (keys_step rd ps) = Some y) in E. apply obind_some in E. destruct E as [x1 [E1 E]].
            destruct (IH _ _ E) as [l L]. assert (G1 : exists l1, a_log x1 = l1 ++ a_log x).
            { destruct (key_step_cases _ _ _ _ _ E1); try (exists []; reflexivity).
              - unfold aheld. destruct (_ =? _)%N; [|exists []; reflexivity]. destruct (repeat_tick _) as [[|] q]; [|exists []; reflexivity].
                destruct (press_log (code_now x r c) (put_rep q x)) as [l1 [L1 _]]. exists l1. exact L1.
              - destruct (press_log (code_now x r c) (accept r c true x)) as [l1 [L1 _]]. exists l1. exact L1.
              - destruct (release_log (code_now x r c) (accept r c false x)) as [l1 [L1 _]]. exists l1. exact L1. }
            destruct G1 as [l1 L1]. exists (l ++ l1). rewrite L, L1, app_assoc. auto. }
          destruct (KG _ _ _ _ EZ) as [l1 L1]. destruct (KG _ _ _ _ E) as [l2 L2]. destruct S0 as [l0 L0].
          exists (l2 ++ l1 ++ l0). rewrite L2, L1, L0, !app_assoc. auto. }
        destruct GR as [l L]. destruct B as [l0 L0]. exists (l ++ l0). rewrite L, L0, app_assoc. auto. }
    destruct G as [l G]. exists (rev l).
    rewrite (events_ok _ _ U1), (events_ok _ _ U2), (events_ok _ _ R1), (events_ok _ _ R2).
    cbn [older a_log put_log]. rewrite G. cbn [ainit a_log]. rewrite <- !app_assoc, !rev_app_distr. auto.
  - rewrite X1, X2. reflexivity.
Qed.
Print Assumptions C49_same_future_partial.

(** Storage of the right size is kept by every run, so the theorems apply to a
    re-initialisation at any time. *)
Theorem C49_storage_kept_partial : forall rds s, run rds = Ok s -> storage_ok s.
Proof.
  intros rds s H. destruct (reach _ _ H) as [a [A RL]]. split.
  - destruct (rl_buf _ _ RL) as (B1&B2&B3&B4&B5&B6&B7). split; auto.
  - rewrite (rl_maps _ _ RL). apply maps_len.
Qed.
Print Assumptions C49_storage_kept_partial.

(** Full statement: initialisation makes any two keyboards behave the same.
    False: the modifier state is not part of what `asdf_init` resets
    (`asdf_modifiers_init` is never called), so a CTRL key that was down before
    stays in force though no key is down. *)
Theorem C49_init_forgets_refuted :
  exists rds s t, run rds = Ok s /\ init s = Ok t /\
    (forall r c, r < 16 -> c < 8 -> down t r c = false) /\ ctrl_on t = true /\
    ~ (forall s1 s2 t1 t2, storage_ok s1 -> storage_ok s2 -> init s1 = Ok t1 -> init s2 = Ok t2 -> looks_same t1 t2).
Proof.
  exists (hold 10 [(0, 6)]).
  assert (X : obs ctrl_on (run (hold 10 [(0, 6)])) = Some true) by (vm_compute; reflexivity).
  assert (Y : obs ctrl_on (run []) = Some false) by (vm_compute; reflexivity).
  apply obs_some in X. destruct X as [s [E X]]. apply obs_some in Y. destruct Y as [z [EZ Y]].
  pose proof (C49_storage_kept_partial _ _ E) as SO. pose proof (C49_storage_kept_partial _ _ EZ) as SZ.
  destruct (C49_init_state_partial _ SO) as (t & I & D & _ & _ & _ & _ & _ & _ & M & _).
  destruct (C49_init_state_partial _ SZ) as (tz & IZ & _ & _ & _ & _ & _ & _ & _ & MZ & _).
  exists s, t. split; auto. split; auto. split; auto. split; [unfold ctrl_on; rewrite M; auto|].
  intros ALL. specialize (ALL s z t tz SO SZ I IZ). pose proof (ls_mod _ _ ALL) as B. rewrite M, MZ in B. unfold ctrl_on in X, Y. rewrite B in X. congruence.
Qed.
Print Assumptions C49_init_forgets_refuted.

(** A case that meets the hypotheses: a keyboard that has typed, with keyboard 2
    selected and a key still down, is re-initialised. *)
Example C49_case :
  obs (fun s => (k_cur s, down s 2 2, sent s)) (run (hold 30 [(8, 1); (2, 2)])) <> None /\
  obs (fun t => (k_cur t, down t 2 2, key_queue t))
      (bind (run (hold 30 [(8, 1); (2, 2)])) init) = Some (0%N, false, []).
Proof. split; [vm_compute; discriminate | vm_compute; reflexivity]. Qed.
