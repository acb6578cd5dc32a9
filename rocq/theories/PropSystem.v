(** The whole board: C74. *)
From Coq Require Import List NArith ZArith Arith Bool Lia.
From Coq Require Import ZifyBool ZifyNat ZifyN.
From Verif Require Import Base Lib Buffer BufferSpec BufferProofs Repeat Devices DevSpec DevProofs
     Modifiers Hook KeymapData Asdf KeySpec KeyRef Obs Frames PropModState PropQueues PropHold PropTyping.
From Verif Require Avr Arch328p Arch2560 PropArch328 PropArch2560 PropHost328 PropHost2560.
From Verif Require Import Host PropHost PropTypist System.
Import ListNotations.

(** ** Runs of a machine *)
Inductive deed := Call (e : event) | Read (row : N) (m : nat -> N).
Definition calls_of (l : list deed) : list event := flat_map (fun d => match d with Call e => [e] | Read _ _ => [] end) l.

Lemma calls_of_map : forall l, calls_of (map Call l) = l.
Proof. induction l as [|e l IH]; [reflexivity|]. cbn. f_equal. exact IH. Qed.
Lemma calls_of_app : forall l k, calls_of (l ++ k) = calls_of l ++ calls_of k.
Proof. intros. apply flat_map_app. Qed.

Section Machine.
Context {H : Type} (M : machine H) (Good : H -> Prop).
Definition deed_on (d : deed) (h : H) : H :=
  match d with Call e => m_call M e h | Read row m => snd (m_read M m row h) end.
Definition deeds (l : list deed) (h : H) : H := fold_left (fun h d => deed_on d h) l h.

Lemma deeds_app : forall l k h, deeds (l ++ k) h = deeds k (deeds l h).
Proof. intros. apply fold_left_app. Qed.
Lemma deeds_calls : forall l h, deeds (map Call l) h = fold_left (fun h e => m_call M e h) l h.
Proof. induction l as [|e l IH]; intros h; [reflexivity|]. cbn. apply IH. Qed.

Hypothesis call_good : forall e h, Good h -> Good (m_call M e h).
Hypothesis read_good : forall m row h, (row < 16)%N -> Good h -> Good (snd (m_read M m row h)).
Hypothesis read_value : forall m row h, (row < 16)%N -> Good h -> u8 (fst (m_read M m row h)) = u8 (m (N.to_nat row)).

Lemma calls_good : forall l h, Good h -> Good (deeds (map Call l) h).
Proof. induction l as [|e l IH]; intros h G; [exact G|]. cbn. apply IH. auto. Qed.

(** What the program sees of a matrix that changes during the scan. *)
Definition seen (mm : nat -> nat -> N) : nat -> N := fun r => mm r r.

(** The machine follows the program from [s] to [s']. *)
Definition follows (s : kb) (h : H) (s' : kb) (h' : H) : Prop :=
  exists l, h' = deeds l h /\ events s' = events s ++ calls_of l /\ Good h'.

Lemma follows_trans : forall s h s1 h1 s2 h2, follows s h s1 h1 -> follows s1 h1 s2 h2 -> follows s h s2 h2.
Proof.
  intros s h s1 h1 s2 h2 (l&E1&E2&G) (l'&E1'&E2'&G'). exists (l ++ l'). split; [rewrite deeds_app; congruence|].
  split; [rewrite calls_of_app, app_assoc; congruence|exact G'].
Qed.

Lemma perform_follows : forall a b s s' h, Rel a s -> Rel b s' -> grows a b -> Good h ->
  follows s h s' (perform M s s' h).
Proof.
  intros a b s s' h R R' [l E] G. exists (map Call (rev l)).
  assert (F : fresh s s' = rev l).
  { unfold fresh. rewrite (rl_log _ _ R), (rl_log _ _ R'), E, app_length.
    replace (length l + length (a_log a) - length (a_log a)) with (length l + 0) by lia.
    rewrite firstn_app_2. cbn [firstn]. rewrite app_nil_r. reflexivity. }
  split; [unfold perform; rewrite F, deeds_calls; reflexivity|].
  split; [rewrite calls_of_map, (events_ok _ _ R), (events_ok _ _ R'), E, rev_app_distr; reflexivity|].
  unfold perform. rewrite F, <- deeds_calls. apply calls_good; auto.
Qed.

Definition matches (x : outcome kb) (y : outcome (kb * H)) (s : kb) (h : H) : Prop :=
  match x with
  | Ok s' => exists h', y = Ok (s', h') /\ follows s h s' h'
  | Bad u => y = Bad u
  end.

Lemma rows_nine : forall k r, (k < 6)%N -> r < nrows k -> r < 9 \/ (4 <= k)%N /\ r < nrows k.
Proof. intros k r Hk Hr. destruct (N.leb_spec 4 k); [right; auto|]. left. rewrite rows_9 in Hr by auto. auto. Qed.

Lemma sys_rows_ok : forall fuel mm row a s h, Rel a s -> Good h ->
  matches (rows_loop fuel (seen mm) row s) (sys_rows M fuel mm row s h) s h.
Proof.
  induction fuel as [|fuel IH]; intros mm row a s h R G; [reflexivity|].
  rewrite rows_loop_step. cbn [sys_rows]. rewrite (num_rows_ok _ _ R). cbn [bind].
  destruct (row <? nrows (a_cur a)) eqn:E.
  2:{ exists h. split; [reflexivity|]. exists []. split; [reflexivity|]. split; [rewrite app_nil_r; reflexivity|exact G]. }
  apply Nat.ltb_lt in E. pose proof (rows_ge _ (rl_lt _ _ R)) as NR.
  assert (L : (N.of_nat row < 16)%N) by lia.
  pose proof (read_value (mm row) (N.of_nat row) h L G) as V. rewrite Nat2N.id in V.
  pose proof (read_good (mm row) (N.of_nat row) h L G) as G1.
  pose proof (row_sim (seen mm) row a s R (rows_nine _ _ (rl_lt _ _ R) E)) as X.
  assert (F : follows s h s (snd (m_read M (mm row) (N.of_nat row) h))).
  { exists [Read (N.of_nat row) (mm row)]. split; [reflexivity|]. split; [cbn; rewrite app_nil_r; reflexivity|exact G1]. }
  destruct (m_read M (mm row) (N.of_nat row) h) as [v h1]. cbn [fst snd] in V, G1, F. rewrite V.
  change (u8 (seen mm row)) with (u8 (mm row row)) in *.
  destruct (lget UScanOob (k_stable s) row) as [st|u] eqn:EL; cbn [bind] in *; [|reflexivity].
  destruct (keys_step (seen mm) (map (pair row) (seq 0 8)) a) as [b|] eqn:EK; cbn [sim] in X; [|rewrite X; reflexivity].
  destruct X as [s1 [E1 R1]]. rewrite E1. cbn [bind].
  pose proof (perform_follows a b s s1 h1 R R1 (keys_grow _ _ _ _ EK) G1) as F1.
  assert (G2 : Good (perform M s s1 h1)) by (destruct F1 as (l&_&_&X); exact X).
  pose proof (IH mm (S row) b s1 (perform M s s1 h1) R1 G2) as Y.
  unfold matches in *. destruct (rows_loop fuel (seen mm) (S row) s1) as [s2|u]; [|exact Y].
  destruct Y as [h2 [Y1 Y2]]. exists h2. split; [exact Y1|].
  eapply follows_trans; [exact F|]. eapply follows_trans; [exact F1|exact Y2].
Qed.

Lemma sys_scan_ok : forall mm a s h, Rel a s -> Good h -> matches (keyscan (seen mm) s) (sys_scan M mm s h) s h.
Proof.
  intros mm a s h R G. unfold keyscan, sys_scan.
  assert (HG : hook_get HOOK_ROW_SCANNER (k_hook s) = Ok HReadRow) by (rewrite (rl_hook _ _ R); reflexivity).
  rewrite HG. cbn [bind].
  assert (HE : hook_execute HOOK_EACH_SCAN s = Ok s) by (unfold hook_execute; rewrite (rl_hook _ _ R); reflexivity).
  rewrite HE. cbn [bind]. pose proof (perform_follows a a s s h R R (grows_refl a) G) as F.
  assert (G1 : Good (perform M s s h)) by (destruct F as (l&_&_&X); exact X).
  pose proof (sys_rows_ok 256 mm 0 a s _ R G1) as X. unfold matches in *.
  destruct (rows_loop 256 (seen mm) 0 s) as [s2|u]; [|exact X]. destruct X as [h2 [X1 X2]].
  exists h2. split; [exact X1|]. eapply follows_trans; eauto.
Qed.

Lemma sys_tick_ok : forall mm a s h, Rel a s -> Good h -> matches (tick (seen mm) s) (sys_tick M mm s h) s h.
Proof.
  intros mm a s h R G. unfold tick, sys_tick. destruct (send_sim a s R) as [s2 [E R2]].
  destruct (next_code s) as [[code s1]|u]; [|discriminate E]. cbn [bind] in *. rewrite E. cbn [bind].
  pose proof (perform_follows _ _ _ _ _ R R2 (send_grows a) G) as F.
  assert (G1 : Good (perform M s s2 h)) by (destruct F as (l&_&_&X); exact X).
  pose proof (sys_scan_ok mm _ s2 _ R2 G1) as X. unfold matches in *.
  destruct (keyscan (seen mm) s2) as [s3|u]; [|exact X]. destruct X as [h2 [X1 X2]].
  exists h2. split; [exact X1|]. eapply follows_trans; eauto.
Qed.

Lemma sys_ticks_ok : forall mms a s h, Rel a s -> Good h ->
  matches (ticks (map seen mms) s) (sys_ticks M mms s h) s h.
Proof.
  induction mms as [|mm mms IH]; intros a s h R G; cbn [map ticks sys_ticks].
  - exists h. split; [reflexivity|]. exists []. split; [reflexivity|]. split; [rewrite app_nil_r; reflexivity|exact G].
  - pose proof (sys_tick_ok mm a s h R G) as X. pose proof (tick_sim (seen mm) a s R) as Y.
    destruct (tick (seen mm) s) as [s1|u]; cbn [matches bind] in *; [|rewrite X; reflexivity].
    destruct X as [h1 [X1 X2]]. rewrite X1. cbn [bind].
    destruct (atick (seen mm) a) as [b|]; cbn [sim] in Y; [|discriminate Y]. destruct Y as [z [Y1 R1]].
    assert (z = s1) by congruence. subst z.
    assert (G1 : Good h1) by (destruct X2 as (l&_&_&X); exact X).
    pose proof (IH b s1 h1 R1 G1) as Z. unfold matches in *.
    destruct (ticks (map seen mms) s1) as [s2|u]; [|exact Z]. destruct Z as [h2 [Z1 Z2]].
    exists h2. split; [exact Z1|]. eapply follows_trans; eauto.
Qed.

Lemma sys_run_ok : (forall h, Good (m_call M EvArchInit h)) -> forall mms h,
  match run (map seen mms) with
  | Ok s => exists h' l, sys_run M mms h = Ok (s, h') /\ h' = deeds (Call EvArchInit :: l) h /\ events s = EvArchInit :: calls_of l
  | Bad u => sys_run M mms h = Bad u
  end.
Proof.
  intros GI mms h. unfold run, sys_run. destruct boot_sim as [s [E R]]. rewrite E. cbn [bind]. clear E.
  assert (F : fresh kb_zero s = [EvArchInit]) by (unfold fresh; rewrite (rl_log _ _ R); reflexivity).
  assert (P : perform M kb_zero s h = m_call M EvArchInit h) by (unfold perform; rewrite F; reflexivity). rewrite P.
  pose proof (sys_ticks_ok mms aboot s (m_call M EvArchInit h) R (GI h)) as X. unfold matches in X.
  destruct (ticks (map seen mms) s) as [s1|u]; [|exact X]. destruct X as [h' [X1 (l&X2&X3&_)]].
  exists h', l. split; [exact X1|]. split; [exact X2|]. rewrite X3, (events_ok _ _ R). reflexivity.
Qed.
End Machine.

(** ** The two boards *)
Definition op328 (d : deed) : Arch328p.op := match d with Call e => Arch328p.OCall e | Read row m => Arch328p.ORead row m end.
Definition op2560 (d : deed) : Arch2560.op := match d with Call e => Arch2560.OCall e | Read row m => Arch2560.ORead row m end.

Lemma deeds_328p : forall rmw ser x l h, deeds (board_328p rmw ser x) l h = Arch328p.steps (PropArch328.mk rmw ser x) (map op328 l) h.
Proof.
  intros rmw ser x. induction l as [|d l IH]; intros h; [reflexivity|]. cbn [map Arch328p.steps]. rewrite <- IH. destruct d; reflexivity.
Qed.
Lemma deeds_2560 : forall rmw x l h, deeds (board_2560 rmw x) l h = Arch2560.steps (PropArch2560.mk rmw x) (map op2560 l) h.
Proof.
  intros rmw x. induction l as [|d l IH]; intros h; [reflexivity|]. cbn [map Arch2560.steps]. rewrite <- IH. destruct d; reflexivity.
Qed.
Lemma calls_328p : forall l, PropHost328.calls (map op328 l) = calls_of l.
Proof.
  induction l as [|d l IH]; [reflexivity|]. unfold PropHost328.calls in *. cbn [map flat_map]. rewrite IH. destruct d; reflexivity.
Qed.
Lemma calls_2560 : forall l, PropHost2560.calls (map op2560 l) = calls_of l.
Proof.
  induction l as [|d l IH]; [reflexivity|]. unfold PropHost2560.calls in *. cbn [map flat_map]. rewrite IH. destruct d; reflexivity.
Qed.

Lemma byte_eq : forall v w, (v < 256)%N -> (forall c, (c < 8)%N -> N.testbit v c = N.testbit w c) -> u8 v = u8 w.
Proof.
  intros v w Hv HB. apply N.bits_inj. intros b. unfold u8. change 256%N with (2 ^ 8)%N. destruct (N.ltb_spec b 8).
  - rewrite !N.mod_pow2_bits_low by auto. auto.
  - rewrite !N.mod_pow2_bits_high by auto. auto.
Qed.

Lemma value_328p : forall rmw ser x m row h, (row < 16)%N -> PropArch328.Cfg (Avr.io h) ->
  u8 (fst (m_read (board_328p rmw ser x) m row h)) = u8 (m (N.to_nat row)).
Proof.
  intros rmw ser x m row h HR C. cbn [m_read board_328p].
  destruct (PropArch328.read_row_ok rmw m ser x row h C _ eq_refl) as (V&L&_).
  assert (E : N.land row 15 = row) by (change 15%N with (N.ones 4); rewrite N.land_ones; apply N.mod_small; exact HR).
  rewrite E in V. apply byte_eq; [exact L|exact V].
Qed.
Lemma value_2560 : forall rmw x m row h, (row < 16)%N -> PropArch2560.Cfg (Avr.io h) ->
  u8 (fst (m_read (board_2560 rmw x) m row h)) = u8 (m (N.to_nat row)).
Proof.
  intros rmw x m row h HR C. cbn [m_read board_2560].
  destruct (PropArch2560.read_row_ok rmw m x row h HR C _ eq_refl) as (V&L&_).
  apply byte_eq; [exact L|exact V].
Qed.

Lemma sys_328p : forall rmw ser x mms h,
  match run (map seen mms) with
  | Ok s => exists h' l, sys_run (board_328p rmw ser x) mms h = Ok (s, h') /\
      h' = Arch328p.steps (PropArch328.mk rmw ser x) (Arch328p.OCall EvArchInit :: l) h /\ events s = EvArchInit :: PropHost328.calls l
  | Bad u => sys_run (board_328p rmw ser x) mms h = Bad u
  end.
Proof.
  intros rmw ser x mms h.
  pose proof (sys_run_ok (board_328p rmw ser x) (fun h => PropArch328.Cfg (Avr.io h))
    (fun e h C => PropArch328.cfg_call _ e h C)
    (fun m row h _ C => proj1 (proj2 (proj2 (PropArch328.read_row_ok rmw m ser x row h C _ eq_refl))))) as X.
  specialize (X (value_328p rmw ser x)).
  specialize (X (fun h => PropArch328.cfg_init _ h) mms h).
  destruct (run (map seen mms)) as [s|u]; [|exact X]. destruct X as (h'&l&X1&X2&X3).
  exists h', (map op328 l). split; [exact X1|]. split; [rewrite X2; apply deeds_328p|]. rewrite calls_328p. exact X3.
Qed.

Lemma sys_2560 : forall rmw x mms h,
  match run (map seen mms) with
  | Ok s => exists h' l, sys_run (board_2560 rmw x) mms h = Ok (s, h') /\
      h' = Arch2560.steps (PropArch2560.mk rmw x) (Arch2560.OCall EvArchInit :: l) h /\ events s = EvArchInit :: PropHost2560.calls l
  | Bad u => sys_run (board_2560 rmw x) mms h = Bad u
  end.
Proof.
  intros rmw x mms h.
  pose proof (sys_run_ok (board_2560 rmw x) (fun h => PropArch2560.Cfg (Avr.io h))
    (fun e h C => PropArch2560.cfg_call _ e h C)
    (fun m row h HR C => proj1 (proj2 (proj2 (PropArch2560.read_row_ok rmw m x row h HR C _ eq_refl))))) as X.
  specialize (X (value_2560 rmw x)).
  specialize (X (fun h => PropArch2560.cfg_init _ h) mms h).
  destruct (run (map seen mms)) as [s|u]; [|exact X]. destruct X as (h'&l&X1&X2&X3).
  exists h', (map op2560 l). split; [exact X1|]. split; [rewrite X2; apply deeds_2560|]. rewrite calls_2560. exact X3.
Qed.

(** ** C74 *)
(** From any contents of the registers, whatever the outputs drive and whatever
    happens at undriven pins, the firmware on a board behaves as the firmware
    that is told truthfully, row by row, which keys are closed at the moment each
    row is read, even if keys move during the scan; and the ports go through the
    initialisation followed by exactly the calls of that run, with row reads in
    between.  Errors of the two coincide. *)
Theorem C74_whole_board : forall mms h,
  (forall rmw ser x,
     match run (map seen mms) with
     | Ok s => exists h' l, sys_run (board_328p rmw ser x) mms h = Ok (s, h') /\
         h' = Arch328p.steps (PropArch328.mk rmw ser x) (Arch328p.OCall EvArchInit :: l) h /\ events s = EvArchInit :: PropHost328.calls l
     | Bad u => sys_run (board_328p rmw ser x) mms h = Bad u
     end) /\
  (forall rmw x,
     match run (map seen mms) with
     | Ok s => exists h' l, sys_run (board_2560 rmw x) mms h = Ok (s, h') /\
         h' = Arch2560.steps (PropArch2560.mk rmw x) (Arch2560.OCall EvArchInit :: l) h /\ events s = EvArchInit :: PropHost2560.calls l
     | Bad u => sys_run (board_2560 rmw x) mms h = Bad u
     end).
Proof. intros mms h. split; intros; [apply sys_328p|apply sys_2560]. Qed.
Print Assumptions C74_whole_board.

(** ** C75 *)
(** What a host at the connector of a board gets, from power-on, when the keys
    move as in [mms]: one line pattern per strobe edge. *)
Definition gets_328p (rise ser : bool) (x : Avr.port -> N) (mms : list (nat -> nat -> N)) (h : Avr.hw) : outcome (list (list Avr.drv)) :=
  bind (sys_run (board_328p false ser x) mms h) (fun p => Ok (latched rise Avr.PB 6 Avr.PD (Avr.hist (snd p)))).
Definition gets_2560 (rise : bool) (x : Avr.port -> N) (mms : list (nat -> nat -> N)) (h : Avr.hw) : outcome (list (list Avr.drv)) :=
  bind (sys_run (board_2560 false x) mms h) (fun p => Ok (latched rise Avr.PB 4 Avr.PH (Avr.hist (snd p)))).

(** As long as keyboard-select switch 2 is open and the polarity switch is not
    moved, the host gets exactly the codes sent. *)
Lemma host_gets : forall b mms s h, run (map seen mms) = Ok s -> Forall (still b) (map seen mms) -> Avr.at_reset h ->
  (forall rise ser x, gets_328p rise ser x mms h = Ok (map lines_of (sent s))) /\
  (forall rise x, gets_2560 rise x mms h = Ok (map lines_of (sent s))).
Proof.
  intros b mms s h E HF HR. destruct (C56_host_gets_sent_partial b _ _ E HF) as [A B]. split.
  - intros rise ser x. pose proof (sys_328p false ser x mms h) as X. rewrite E in X. destruct X as (h'&l&X1&X2&X3).
    unfold gets_328p. rewrite X1. cbn [bind snd]. rewrite X2. rewrite (A rise ser x h l HR X3). reflexivity.
  - intros rise x. pose proof (sys_2560 false x mms h) as X. rewrite E in X. destruct X as (h'&l&X1&X2&X3).
    unfold gets_2560. rewrite X1. cbn [bind snd]. rewrite X2. rewrite (B rise x h l HR X3). reflexivity.
Qed.

(** Every text over the alphabet of the keyboard can be typed on the physical
    keys, with the switches never moved, so that the host at the connector of
    either board latches exactly that text, on either strobe edge. *)
Theorem C75_keys_to_pins : forall k text, (k < 4)%N -> Forall (fun x => alphabet k x = true) text ->
  exists mats : list (nat -> N), Forall (set_to k) mats /\
  forall mms h, map seen mms = mats -> Avr.at_reset h ->
    (forall rise ser x, gets_328p rise ser x mms h = Ok (map lines_of text)) /\
    (forall rise x, gets_2560 rise x mms h = Ok (map lines_of text)).
Proof.
  intros k text Hk HF. destruct (C73_any_text k text Hk HF) as (rds&s&E&_&HT&_&HS&_).
  exists rds. split; [exact HT|]. intros mms h EM HR. subst rds. rewrite <- HS. apply (host_gets false); auto.
  eapply Forall_impl; [|exact HT]. intros rd H. split; [rewrite H by lia|rewrite H by lia]; clear -Hk; kcases k; first [lia|reflexivity].
Qed.
Print Assumptions C75_keys_to_pins.

(** Keyboard 0; key (1,1) held for 11 ms and released. *)
Definition steady (rd : nat -> N) : nat -> nat -> N := fun _ => rd.
Example C75_example :
  let mms := map steady (hold 11 [(1, 1)] ++ hold 1 []) in
  Avr.at_reset PropArch328.hw0 /\ obs sent (run (map seen mms)) = Some [112%N] /\
  gets_328p true true (fun _ => 0x5a%N) mms PropArch328.hw0 = Ok (map lines_of [112%N]) /\
  gets_2560 false (fun _ => 0x5a%N) mms PropArch2560.hw0 = Ok (map lines_of [112%N]).
Proof. split; [repeat split|]. vm_compute. auto. Qed.

(** Key (1,1) closes while the ninth row of the first scan is being read: the
    first scan misses it, the next ten accept it. *)
Example C74_example :
  let closing_late : nat -> nat -> N := fun row => if row <? 8 then matrix [] else matrix [(1, 1)] in
  let n_ticks n := closing_late :: map steady (hold n [(1, 1)]) in
  map (fun mms => obs sent (bind (sys_run (board_328p true false (fun _ => 0%N)) mms PropArch328.hw0) (fun p => Ok (fst p))))
    [n_ticks 10; n_ticks 11] = [Some []; Some [112%N]].
Proof. vm_compute. reflexivity. Qed.
