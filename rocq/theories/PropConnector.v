(** In real time from the keys to the connector: C90, C91. *)
From Coq Require Import List NArith ZArith Arith Bool Lia.
From Coq Require Import ZifyBool ZifyNat ZifyN.
From Verif Require Import Base Lib Buffer BufferSpec BufferProofs Repeat Devices DevSpec DevProofs
     Modifiers Hook KeymapData Asdf KeySpec KeyRef Obs Frames PropModState PropQueues PropHold PropTyping.
From Verif Require Avr Arch328p Arch2560 PropArch328 PropArch2560 PropHost328 PropHost2560.
From Verif Require Import Host PropHost PropTypist System PropSystem Timed PropTimed.
Import ListNotations.

(** ** What a machine goes through *)
Section Any.
Context {H : Type} (M : machine H).

Lemma perform_deeds : forall a b s s' h, Rel a s -> Rel b s' -> grows a b ->
  exists l, perform M s s' h = deeds M l h /\ events s' = events s ++ calls_of l.
Proof.
  intros a b s s' h R R' G. destruct (perform_follows M (fun _ => True) ltac:(auto) a b s s' h R R' G I) as (l&E1&E2&_). eauto.
Qed.

Lemma rows_deeds : forall fuel mm row a s h s' h', Rel a s -> sys_rows M fuel mm row s h = Ok (s', h') ->
  exists l b, Rel b s' /\ h' = deeds M l h /\ events s' = events s ++ calls_of l.
Proof.
  induction fuel as [|fuel IH]; intros mm row a s h s' h' R E; [discriminate E|].
  cbn [sys_rows] in E. rewrite (num_rows_ok _ _ R) in E. cbn [bind] in E.
  destruct (row <? nrows (a_cur a)) eqn:EL.
  2:{ assert (s' = s) by congruence. assert (h' = h) by congruence. subst s' h'. exists [], a. split; [exact R|]. split; [reflexivity|].
      rewrite app_nil_r. reflexivity. }
  apply Nat.ltb_lt in EL.
  assert (ER : snd (m_read M (mm row) (N.of_nat row) h) = deeds M [Read (N.of_nat row) (mm row)] h) by reflexivity.
  destruct (m_read M (mm row) (N.of_nat row) h) as [v h1]. cbn [snd] in ER.
  pose proof (row_sim (fun _ => v) row a s R (rows_nine _ _ (rl_lt _ _ R) EL)) as X. cbv beta in X.
  destruct (lget UScanOob (k_stable s) row) as [st|u]; cbn [bind] in *; [|discriminate E].
  destruct (keys_step (fun _ => v) (map (pair row) (seq 0 8)) a) as [b|] eqn:EK; cbn [sim] in X; [|rewrite X in E; discriminate E].
  destruct X as [s1 [E1 R1]]. rewrite E1 in E. cbn [bind] in E.
  destruct (perform_deeds a b s s1 h1 R R1 (keys_grow _ _ _ _ EK)) as (l1&P1&EV1).
  destruct (IH mm (S row) b s1 _ s' h' R1 E) as (l2&d&RD&P2&EV2).
  exists ((Read (N.of_nat row) (mm row) :: l1) ++ l2), d. split; [exact RD|].
  split; [rewrite deeds_app; change (deeds M (Read (N.of_nat row) (mm row) :: l1) h) with (deeds M l1 (deeds M [Read (N.of_nat row) (mm row)] h));
          rewrite <- ER, <- P1; exact P2|].
  rewrite calls_of_app, app_assoc. change (calls_of (Read (N.of_nat row) (mm row) :: l1)) with (calls_of l1). rewrite <- EV1. exact EV2.
Qed.

Lemma tick_deeds : forall mm a s h s' h', Rel a s -> sys_tick M mm s h = Ok (s', h') ->
  exists l b, Rel b s' /\ h' = deeds M l h /\ events s' = events s ++ calls_of l.
Proof.
  intros mm a s h s' h' R ET. unfold sys_tick in ET. destruct (send_sim a s R) as [s2 [E R2]].
  destruct (next_code s) as [[code s1]|u]; [|discriminate E]. cbn [bind] in *. rewrite E in ET. cbn [bind] in ET.
  unfold sys_scan in ET.
  assert (HG : hook_get HOOK_ROW_SCANNER (k_hook s2) = Ok HReadRow) by (rewrite (rl_hook _ _ R2); reflexivity).
  rewrite HG in ET. cbn [bind] in ET.
  assert (HE : hook_execute HOOK_EACH_SCAN s2 = Ok s2) by (unfold hook_execute; rewrite (rl_hook _ _ R2); reflexivity).
  rewrite HE in ET. cbn [bind] in ET.
  destruct (perform_deeds _ _ _ _ h R R2 (send_grows a)) as (l1&P1&EV1).
  destruct (perform_deeds _ _ _ _ (perform M s s2 h) R2 R2 (grows_refl (asend a))) as (l2&P2&EV2).
  destruct (rows_deeds _ _ _ _ _ _ _ _ R2 ET) as (l3&b&RB&P3&EV3).
  exists (l1 ++ l2 ++ l3), b. split; [exact RB|]. split; [rewrite !deeds_app, <- P1, <- P2; exact P3|].
  rewrite !calls_of_app, !app_assoc, <- EV1, <- EV2. exact EV3.
Qed.

End Any.

(** With a clock beside it. *)
Section Clock.
Context {H : Type} (M : machine H).
Lemma timed_deeds : forall W l x, exists l', fst (deeds (timed M W) l x) = deeds M l' (fst x) /\ calls_of l' = calls_of l.
Proof.
  intros W. induction l as [|d l IH]; intros x; [exists []; auto|].
  change (deeds (timed M W) (d :: l) x) with (deeds (timed M W) l (deed_on (timed M W) d x)).
  destruct (IH (deed_on (timed M W) d x)) as (l'&E&C). rewrite E. destruct d as [e|row m].
  - exists (Call e :: l'). split; [reflexivity|]. cbn. f_equal. exact C.
  - exists (Read row (W (now (snd x))) :: l'). split; [|exact C].
    change (deeds M (Read row (W (now (snd x))) :: l') (fst x)) with (deeds M l' (deed_on M (Read row (W (now (snd x)))) (fst x))).
    f_equal. cbn [deed_on m_read timed]. destruct (m_read M (W (now (snd x))) row (fst x)); reflexivity.
Qed.

Lemma passes_deeds : forall W n a s x s' x', Rel a s -> passes (fun x => (fst x, wait (snd x))) (timed M W) n s x = Ok (s', x') ->
  exists l, fst x' = deeds M l (fst x) /\ events s' = events s ++ calls_of l.
Proof.
  intros W. induction n as [|n IH]; intros a s x s' x' R E; cbn [passes] in E.
  - assert (s' = s) by congruence. assert (x' = x) by congruence. subst s' x'. exists []. rewrite app_nil_r. auto.
  - destruct (sys_tick (timed M W) (fun _ _ => 0%N) s (fst x, wait (snd x))) as [[s1 x1]|u] eqn:ET; cbn [bind] in E; [|discriminate E].
    assert (TD : exists l b, Rel b s1 /\ fst x1 = deeds M l (fst x) /\ events s1 = events s ++ calls_of l).
    { clear E IH. destruct (tick_deeds (timed M W) _ a s _ s1 x1 R ET) as (l&b&RB&P&EV).
      destruct (timed_deeds W l (fst x, wait (snd x))) as (l'&P'&C'). exists l', b. split; [exact RB|].
      split; [rewrite P; exact P'|congruence]. }
    destruct TD as (l1&b&RB&P1&EV1). destruct (IH b s1 x1 s' x' RB E) as (l2&P2&EV2).
    exists (l1 ++ l2). split; [rewrite deeds_app, <- P1; exact P2|]. rewrite calls_of_app, app_assoc, <- EV1. exact EV2.
Qed.
End Clock.

Lemma live_bind : forall {H} (w : H -> H) (M : machine H) n h,
  live w M n h = bind boot (fun s => passes w M n s (perform M kb_zero s h)).
Proof. reflexivity. Qed.
Lemma real_on_live : forall {H} (M : machine H) W n h, real_on M W n h = live (fun x => (fst x, wait (snd x))) (timed M W) n (h, clk0).
Proof. reflexivity. Qed.
Lemma real_deeds : forall {H} (M : machine H) W n h s h' c, real_on M W n h = Ok (s, (h', c)) ->
  exists l, h' = deeds M (Call EvArchInit :: l) h /\ events s = EvArchInit :: calls_of l.
Proof.
  intros H M W n h s h' c E. rewrite real_on_live, live_bind in E. destruct boot_sim as [s0 [E0 R]]. apply bind_split in E. destruct E as [s1 [E1 E]].
  assert (s1 = s0) by congruence. subst s1. clear E0 E1.
  assert (F : fresh kb_zero s0 = [EvArchInit]) by (unfold fresh; rewrite (rl_log _ _ R); reflexivity).
  unfold perform in E. rewrite F in E. cbn [fold_left] in E. destruct (passes_deeds M W n _ _ _ _ _ R E) as (l&P&EV).
  exists l. split; [exact P|]. rewrite EV, (events_ok _ _ R). reflexivity.
Qed.

Lemma agrees_ok : forall {H} (M : machine H) W n h s c, board_agrees M W n h -> real W n = Ok (s, c) -> exists h', real_on M W n h = Ok (s, (h', c)).
Proof.
  intros H M W n h s c. assert (X : board_agrees M W n h = match real W n with Ok (s, c) => exists h', real_on M W n h = Ok (s, (h', c)) | Bad u => real_on M W n h = Bad u end) by reflexivity.
  rewrite X. clear X. intros A E. rewrite E in A. exact A.
Qed.

(** ** C90 *)
(** What a host at the connector of a board has got after [n] passes in real time. *)
Definition gets_real_328p (rise ser : bool) (x : Avr.port -> N) (W : nat -> nat -> N) (n : nat) (h : Avr.hw) : outcome (list (list Avr.drv)) :=
  bind (real_on (board_328p false ser x) W n h) (fun p => Ok (latched rise Avr.PB 6 Avr.PD (Avr.hist (fst (snd p))))).
Definition gets_real_2560 (rise : bool) (x : Avr.port -> N) (W : nat -> nat -> N) (n : nat) (h : Avr.hw) : outcome (list (list Avr.drv)) :=
  bind (real_on (board_2560 false x) W n h) (fun p => Ok (latched rise Avr.PB 4 Avr.PH (Avr.hist (fst (snd p))))).

Lemma still_readings : forall b W T n, (forall t, still b (W t)) -> Forall (still b) (readings_of W T n).
Proof.
  intros b W T n H. apply Forall_forall. intros rd IN. apply in_map_iff in IN. destruct IN as [i [<- _]].
  destruct (H (T i 8)) as [A B]. split; [exact A|exact B].
Qed.

(** In real time, on a board from reset, whatever the keys do: the ports have
    gone through the initialisation and exactly the calls of the firmware, with
    row reads in between; and with keyboard-select switch 2 open and the polarity
    switch not moved, a host latching on either edge has got exactly the codes
    that were sent, those with a time stamp. *)
Theorem C90_real_time_to_connector : forall W n s c, real W n = Ok (s, c) ->
  (forall rmw ser x h, exists h' l, real_on (board_328p rmw ser x) W n h = Ok (s, (h', c)) /\
     h' = Arch328p.steps (PropArch328.mk rmw ser x) (Arch328p.OCall EvArchInit :: l) h /\ events s = EvArchInit :: PropHost328.calls l) /\
  (forall rmw x h, exists h' l, real_on (board_2560 rmw x) W n h = Ok (s, (h', c)) /\
     h' = Arch2560.steps (PropArch2560.mk rmw x) (Arch2560.OCall EvArchInit :: l) h /\ events s = EvArchInit :: PropHost2560.calls l) /\
  forall b h, (forall t, still b (W t)) -> Avr.at_reset h ->
    (forall rise ser x, gets_real_328p rise ser x W n h = Ok (map (fun p => lines_of (snd p)) (rev (stamps c)))) /\
    (forall rise x, gets_real_2560 rise x W n h = Ok (map (fun p => lines_of (snd p)) (rev (stamps c)))).
Proof.
  intros W n s c E. destruct (C81_real_time W n) as (B1&B2&X). rewrite E in X. destruct X as (T&ER&_&ST).
  assert (X1 : forall rmw ser x h, exists h' l, real_on (board_328p rmw ser x) W n h = Ok (s, (h', c)) /\
     h' = Arch328p.steps (PropArch328.mk rmw ser x) (Arch328p.OCall EvArchInit :: l) h /\ events s = EvArchInit :: PropHost328.calls l).
  { intros rmw ser x h. destruct (agrees_ok _ _ _ _ _ _ (B1 rmw ser x h) E) as [h' EB]. destruct (real_deeds _ _ _ _ _ _ _ EB) as (l&P&EV).
    exists h', (map op328 l). split; [exact EB|]. split; [rewrite P; apply deeds_328p|]. rewrite calls_328p. exact EV. }
  assert (X2 : forall rmw x h, exists h' l, real_on (board_2560 rmw x) W n h = Ok (s, (h', c)) /\
     h' = Arch2560.steps (PropArch2560.mk rmw x) (Arch2560.OCall EvArchInit :: l) h /\ events s = EvArchInit :: PropHost2560.calls l).
  { intros rmw x h. destruct (agrees_ok _ _ _ _ _ _ (B2 rmw x h) E) as [h' EB]. destruct (real_deeds _ _ _ _ _ _ _ EB) as (l&P&EV).
    exists h', (map op2560 l). split; [exact EB|]. split; [rewrite P; apply deeds_2560|]. rewrite calls_2560. exact EV. }
  split; [exact X1|]. split; [exact X2|]. intros b h HS HR.
  destruct (C56_host_gets_sent_partial b _ _ ER (still_readings b W T n HS)) as [Y1 Y2].
  assert (M0 : map (fun p => lines_of (snd p)) (rev (stamps c)) = map lines_of (sent s)).
  { rewrite <- map_map, map_rev, ST, rev_involutive. reflexivity. }
  rewrite M0. split.
  - intros rise ser x. destruct (X1 false ser x h) as (h'&l&E1&E2&E3). unfold gets_real_328p. rewrite E1, bind_Ok. cbn [fst snd].
    rewrite E2, (Y1 rise ser x h l HR E3). reflexivity.
  - intros rise x. destruct (X2 false x h) as (h'&l&E1&E2&E3). unfold gets_real_2560. rewrite E1, bind_Ok. cbn [fst snd].
    rewrite E2, (Y2 rise x h l HR E3). reflexivity.
Qed.
Print Assumptions C90_real_time_to_connector.

(** ** C91 *)
(** Keys that move as in a list of matrices, one per millisecond, and stay. *)
Definition film (rds : list (nat -> N)) (z : nat -> N) : nat -> nat -> N := fun t => nth (t - 1) rds z.
Lemma film_map : forall rds z, map (film rds z) (seq 1 (length rds)) = rds.
Proof.
  intros rds z. rewrite <- seq_shift, map_map. unfold film. transitivity (map (fun i => nth i rds z) (seq 0 (length rds))).
  - apply map_ext. intros i. f_equal. lia.
  - induction rds as [|x rds IH]; [reflexivity|]. cbn [length seq map nth]. f_equal. rewrite <- seq_shift, map_map. exact IH.
Qed.

(** At home with nothing touched: nothing happens. *)
Lemma home_waits : forall k pre s j, (k < 4)%N -> run pre = Ok s -> home k s ->
  exists s' l, ticks (repeat (closing (switches_only k)) j) s = Ok s' /\ events s' = events s ++ l /\ sends l = [] /\ Forall timeless l.
Proof.
  intros k pre s j Hk E (HR&HK&HM&HD).
  assert (SS : session k (down s) plain_modes (repeat (closing (switches_only k)) j) [] (down s) plain_modes).
  { induction j as [|j IH]; [apply s_done|]. cbn [repeat]. apply s_wait; [| |exact IH].
    - intros r c Hr Hc. rewrite (closing_shows (switches_only k)) by auto. symmetry. auto.
    - apply quiet_free; [exact Hk| |lia]. intros r c Hr Hc D. rewrite HD in D by auto. rewrite D. reflexivity. }
  rewrite <- HK in SS. rewrite <- HM in SS at 1.
  destruct (session_run pre s _ _ _ _ E ltac:(rewrite HK; exact Hk) HR SS) as (s'&l&T&EV&SL&IL&_).
  exists s', l. split; [rewrite HK in T; exact T|]. split; [exact EV|]. split; [exact SL|apply instant_timeless; exact IL].
Qed.

(** Every text over the alphabet of the keyboard can be typed in real time, in 42
    milliseconds per character and at most 36 at the start, with the switches
    never moved: after that time and for ever the host has exactly this text, on
    either board, on either strobe edge. *)
Theorem C91_any_text_in_real_time : forall k text, (k < 4)%N -> Forall (fun x => alphabet k x = true) text ->
  exists (W : nat -> nat -> N) T, (forall t, set_to k (W t)) /\ T <= 36 + 42 * length text /\
    forall n, T <= n ->
      (exists s c, real W n = Ok (s, c) /\ now c = n /\ map snd (rev (stamps c)) = text) /\
      forall h, Avr.at_reset h ->
        (forall rise ser x, gets_real_328p rise ser x W n h = Ok (map lines_of text)) /\
        (forall rise x, gets_real_2560 rise x W n h = Ok (map lines_of text)).
Proof.
  intros k text Hk HF. destruct (type_all k Hk text HF) as (rds&s&E&HH&HS&HT&HL&HI).
  set (z := closing (switches_only k)).
  assert (Z : set_to k z).
  { intros c Hc. unfold z. rewrite (closing_shows (switches_only k)) by (auto; lia). reflexivity. }
  set (W := film rds z).
  assert (HW : forall t, set_to k (W t)).
  { intros t. unfold W, film. destruct (nth_in_or_default (t - 1) rds z) as [IN| ->]; [|exact Z].
    rewrite Forall_forall in HT. auto. }
  exists W, (length rds). split; [exact HW|]. split; [exact HL|]. intros n HN.
  destruct (home_waits k rds s (n - length rds) Hk E HH) as (s2&l2&E2&EV2&SL2&HI2).
  assert (ER : run (rds ++ repeat z (n - length rds)) = Ok s2) by (rewrite run_app, E, bind_Ok; exact E2).
  destruct (real_0 W) as (s0&R0&E0&RL0).
  assert (FM : map W (seq 1 n) = rds ++ repeat z (n - length rds)).
  { replace n with (length rds + (n - length rds)) at 1 by lia. rewrite seq_app, map_app. f_equal; [apply film_map|].
    assert (G : forall m i, length rds < i -> map W (seq i m) = repeat z m).
    { induction m as [|m IH]; intros i Hi; [reflexivity|]. cbn [seq map repeat]. f_equal; [apply nth_overflow; lia|apply IH; lia]. }
    apply G. lia. }
  assert (ET : ticks (map W (seq (S (now clk0)) n)) s0 = Ok s2).
  { cbn [now clk0]. rewrite FM. rewrite <- (app_nil_l (rds ++ _)), run_app, E0, bind_Ok in ER. exact ER. }
  destruct (ticks_events _ _ _ _ RL0 ET) as [l EV].
  assert (HL' : Forall timeless l).
  { assert (A : Forall timeless (events s2)) by (rewrite EV2; apply Forall_app; auto). rewrite EV in A. apply Forall_app in A. apply A. }
  destruct (quiet_ticks W n 0 s0 clk0 s2 l R0 eq_refl ET EV HL') as (c&RT&NT&_). rewrite Nat.add_0_l in RT.
  destruct (C81_real_time W n) as (_&_&X). rewrite RT in X. destruct X as (T&_&_&ST).
  assert (TX : map snd (rev (stamps c)) = text).
  { rewrite map_rev, ST, rev_involutive. unfold sent. rewrite EV2, sends_app, SL2, app_nil_r. exact HS. }
  split; [exists s2, c; split; [exact RT|]; split; [exact NT|exact TX]|].
  intros h HR. destruct (C90_real_time_to_connector W _ _ _ RT) as (_&_&G). rewrite <- TX, map_map. apply (G false); [|exact HR].
  intros t. specialize (HW t). split; [rewrite HW by lia|rewrite HW by lia]; clear -Hk; kcases k; first [lia|reflexivity].
Qed.
Print Assumptions C91_any_text_in_real_time.

(** ** Examples *)
(** CTRL and the identification key held for 20 ms on keyboard 0: after 100
    passes the hosts have the 86 characters of the message, which took 3.4 s. *)
Definition id_keys : nat -> nat -> N := fun t => if t <=? 20 then matrix [(0, 6); (6, 6)] else matrix [].
Example C90_example :
  (forall t, still false (id_keys t)) /\ Avr.at_reset PropArch328.hw0 /\
  PropTimed.seen (fun p => (length (sent (fst p)), now (snd p))) (real id_keys 100) = Some (86, 3454) /\
  match gets_real_328p true false (fun _ => 0x5a%N) id_keys 30 PropArch328.hw0, gets_real_2560 false (fun _ => 0x5a%N) id_keys 30 PropArch2560.hw0,
        real id_keys 30 with
  | Ok g, Ok g', Ok (s, _) => g = map lines_of (sent s) /\ g' = map lines_of (sent s) /\ length g = 20
  | _, _, _ => False
  end.
Proof. split; [intros t; unfold id_keys; destruct (t <=? 20); split; reflexivity|]. split; [repeat split|]. vm_compute. auto. Qed.

(** "Hi!" on keyboard 2 in real time. *)
Example C91_example :
  let D := switches_only 2 in
  let W := film (start 2 ++ type_char D 1 3 3 ++ type_char D 0 4 1 ++ type_char D 1 7 7) (closing D) in
  forallb (alphabet 2) [72; 105; 33]%N = true /\
  PropTimed.seen (fun p => (now (snd p), rev (stamps (snd p)))) (real W 300) = Some (300, [(57, 72%N); (89, 105%N); (121, 33%N)]).
Proof. vm_compute. auto. Qed.
