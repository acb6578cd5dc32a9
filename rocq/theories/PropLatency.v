(** Losing and delaying keystrokes: C63, C64. *)
From Coq Require Import List NArith ZArith Arith Bool Lia.
From Coq Require Import ZifyBool ZifyNat ZifyN.
From Verif Require Import Base Lib Buffer BufferSpec BufferProofs Repeat Devices DevSpec DevProofs
     Modifiers Hook KeymapData Asdf KeySpec KeyRef Obs Frames PropModState PropQueues.
Import ListNotations.
Local Open Scope outcome_scope.

(** Codes below 0xA0 are sent; the others leave the queue silently. *)
Definition sendable (l : list N) : list N := filter (fun c => c <? 0xA0)%N l.

(** The ticks [rds] lead from [s] to [s']; per tick, the codes and the message
    characters that the keys offer to the queues. *)
Inductive typing : list (nat -> N) -> kb -> kb -> list (list N) -> list (list N) -> Prop :=
| typing_nil : forall s, typing [] s s [] []
| typing_tick : forall rd rds s s1 s2 s' ks ms kss mss,
    sender s = Ok s1 -> keyscan rd s1 = Ok s2 -> scan_steps rd (grid 0 (nrows (k_cur s2))) s1 s2 ks ms ->
    typing rds s2 s' kss mss -> typing (rd :: rds) s s' (ks :: kss) (ms :: mss).

Lemma run_snoc : forall pre s rd s2, run pre = Ok s -> tick rd s = Ok s2 -> run (pre ++ [rd]) = Ok s2.
Proof.
  intros pre s rd s2 H E. rewrite run_app, H. cbn [bind]. change (ticks [rd] s) with (bind (tick rd s) (ticks [])). rewrite E. reflexivity.
Qed.

(** Every execution is of that form. *)
Theorem C63_every_run_is_typing_partial : forall rds pre s s', run pre = Ok s -> ticks rds s = Ok s' ->
  exists kss mss, typing rds s s' kss mss /\ length kss = length rds.
Proof.
  induction rds as [|rd rds IH]; intros pre s s' H HT.
  - change (ticks [] s) with (Ok s) in HT. inv HT. exists [], []. split; [constructor|auto].
  - change (ticks (rd :: rds) s) with (bind (tick rd s) (ticks rds)) in HT.
    apply bind_split in HT. destruct HT as [s2 [ET HT]]. pose proof (run_snoc _ _ _ _ H ET) as H2.
    destruct (half_ok _ _ H) as (a&s1&A&RL&L&E&R1&L1). rewrite tick_halves, E in ET. cbn [bind] in ET.
    destruct (C28_scan_types_pressed_keys _ _ _ _ _ H E ET) as (ks&ms&ST&_).
    destruct (IH _ _ _ H2 HT) as (kss&mss&T&LN). exists (ks :: kss), (ms :: mss). split; [econstructor; eauto|cbn; lia].
Qed.
Print Assumptions C63_every_run_is_typing_partial.

(** With [b] codes waiting, these numbers of new codes per tick never exceed 16
    waiting codes, one leaving per tick. *)
Fixpoint fits (b : nat) (ns : list nat) : Prop :=
  match ns with
  | [] => True
  | n :: t => b - 1 + n <= 16 /\ fits (b - 1 + n) t
  end.

(** As long as no message is waiting or typed and no more than 16 codes pile up,
    nothing is lost, duplicated or reordered. *)
Theorem C63_no_keystroke_lost_partial : forall rds s s' kss mss, typing rds s s' kss mss ->
  forall pre, run pre = Ok s -> msg_queue s = [] -> Forall (fun m => m = []) mss -> fits (length (key_queue s)) (map (@length N) kss) ->
  sent s' ++ sendable (key_queue s') = sent s ++ sendable (key_queue s ++ concat kss) /\ msg_queue s' = [].
Proof.
  induction 1 as [s|rd rds s s1 s2 s' ks ms kss mss E1 E2 ST T IH]; intros pre H HM HF HB.
  - cbn [concat]. rewrite app_nil_r. auto.
  - inv HF. cbn [map fits] in HB. destruct HB as [B1 B2].
    assert (ET : tick rd s = Ok s2) by (rewrite tick_halves, E1; exact E2).
    destruct (tick_flow _ _ _ _ H ET) as (x1&kn&mn&E1'&E2'&K1&K2&M1&M2&LOW&_). assert (x1 = s1) by congruence. subst x1.
    destruct (C37_one_code_per_tick _ _ _ _ H ET) as [l [EV SL]].
    destruct (half_ok _ _ H) as (a&x1&A&RL&L&E&R1&L1). assert (x1 = s1) by congruence. subst x1.
    destruct (qk_bound _ _ R1) as [BK BM]. rewrite <- (key_queue_ok _ _ R1) in BK. rewrite <- (msg_queue_ok _ _ R1) in BM.
    destruct (steps_queues _ _ _ _ _ _ ST BK BM) as (Q1&Q2&_).
    assert (M1' : msg_queue s1 = []). { unfold leaving_m in M1. rewrite HM in M1. cbn in M1. symmetry. exact M1. }
    assert (LK : length (key_queue s1) = length (key_queue s) - 1).
    { unfold leaving_k in K1. rewrite HM in K1. destruct (key_queue s) as [|c q]; cbn [firstn app] in K1; [rewrite <- K1; auto|]. inv K1. cbn. lia. }
    rewrite M1' in Q2. cbn in Q2. rewrite firstn_all2 in Q1 by (rewrite app_length; lia).
    destruct (IH _ (run_snoc _ _ _ _ H ET) Q2) as [I1 I2]; auto.
    { rewrite Q1, app_length, LK. exact B2. }
    split; auto. rewrite I1. unfold sent. rewrite EV, !sends_app, (silent_sends _ SL), app_nil_r, <- app_assoc. f_equal.
    rewrite Q1. cbn [concat]. unfold sendable. rewrite !filter_app, !app_assoc. f_equal. f_equal.
    unfold tick_sends. rewrite HM. unfold leaving_k in K1. rewrite HM in K1.
    destruct (key_queue s) as [|c q]; cbn [firstn app] in K1; [rewrite <- K1; auto|]. inv K1.
    cbn [filter]. destruct (c <? 0xA0)%N; reflexivity.
Qed.
Print Assumptions C63_no_keystroke_lost_partial.

(** Full statement: every accepted press of a character key is sent.  False:
    with seventeen keys accepted in one scan the last is lost. *)
Definition seventeen : list (nat * nat) := map (fun i => (2 + i / 7, 1 + i mod 7)) (seq 0 17).
Theorem C63_keystroke_lost_refuted : exists s,
  run (hold 10 seventeen ++ hold 40 []) = Ok s /\ 
  length (filter (fun p => (key_code s (fst p) (snd p) <? 0xA0)%N) seventeen) = 17 /\
  length (sent s) = 16 /\ key_queue s = [] /\
  obs (fun s => forallb (fun p => down s (fst p) (snd p)) seventeen) (run (hold 10 seventeen)) = Some true.
Proof.
  assert (X : obs (fun s => (length (filter (fun p => (key_code s (fst p) (snd p) <? 0xA0)%N) seventeen), length (sent s), key_queue s)) (run (hold 10 seventeen ++ hold 40 [])) = Some (17, 16, [])) by (vm_compute; reflexivity).
  apply obs_some in X. destruct X as [s [E X]]. exists s. split; [exact E|]. clear E.
  assert (Y : obs (fun s => forallb (fun p => down s (fst p) (snd p)) seventeen) (run (hold 10 seventeen)) = Some true) by (vm_compute; reflexivity).
  split; [congruence|]. split; [congruence|]. split; [congruence|]. exact Y.
Qed.
Print Assumptions C63_keystroke_lost_refuted.

(** A burst of three keys, then one more: four codes fit and arrive. *)
Example C63_example :
  fits 0 [0; 3; 0; 1; 0] /\
  obs sent (run (hold 10 [(1, 1); (2, 1); (3, 1)] ++ hold 10 [(1, 1); (2, 1); (3, 1); (4, 1)] ++ hold 10 [])) = Some [112; 44; 107; 105]%N.
Proof. split; [cbn; lia|]. vm_compute. reflexivity. Qed.

(** ** C64 *)
(** With [n] message characters and [j] key codes ahead of it and no further
    message, a waiting code is sent in tick n + j + 1 and not before: whatever the
    keys do, these ticks send exactly the message characters, then the codes. *)
Theorem C64_exact_delay_partial : forall rds s s' kss mss, typing rds s s' kss mss ->
  forall pre, run pre = Ok s -> Forall (fun m => m = []) mss -> length rds <= length (msg_queue s) + length (key_queue s) ->
  sent s' = sent s ++ firstn (length rds) (msg_queue s) ++ sendable (firstn (length rds - length (msg_queue s)) (key_queue s)).
Proof.
  induction 1 as [s|rd rds s s1 s2 s' ks ms kss mss E1 E2 ST T IH]; intros pre H HF HB.
  - cbn. rewrite app_nil_r. auto.
  - inv HF. cbn [length] in *.
    assert (ET : tick rd s = Ok s2) by (rewrite tick_halves, E1; exact E2).
    destruct (tick_flow _ _ _ _ H ET) as (x1&kn&mn&E1'&E2'&K1&K2&M1&M2&LOW&_). assert (x1 = s1) by congruence. subst x1.
    destruct (C37_one_code_per_tick _ _ _ _ H ET) as [l [EV SL]].
    destruct (half_ok _ _ H) as (a&x1&A&RL&L&E&R1&L1). assert (x1 = s1) by congruence. subst x1.
    destruct (qk_bound _ _ R1) as [BK BM]. rewrite <- (key_queue_ok _ _ R1) in BK. rewrite <- (msg_queue_ok _ _ R1) in BM.
    destruct (steps_queues _ _ _ _ _ _ ST BK BM) as (_&Q2&_). rewrite app_nil_r, firstn_all2 in Q2 by auto.
    assert (SE : sent s2 = sent s ++ sends (tick_sends s)).
    { unfold sent. rewrite EV, !sends_app, (silent_sends _ SL), app_nil_r. auto. }
    rewrite (IH _ (run_snoc _ _ _ _ H ET)); auto.
    + rewrite SE, <- app_assoc. f_equal. rewrite Q2. unfold tick_sends. unfold leaving_m in M1. unfold leaving_k in K1.
      destruct (msg_queue s) as [|c q].
      * cbn [firstn app length] in M1, HB. rewrite <- M1. rewrite firstn_nil. cbn [length app]. rewrite Nat.sub_0_r. 
        destruct (key_queue s) as [|c q]; [cbn [length] in HB; lia|]. cbn [firstn app length] in K1, HB. inv K1.
        rewrite K2, firstn_app. replace (length rds - length (key_queue s1)) with 0 by lia. cbn [firstn]. rewrite app_nil_r.
        unfold sendable. cbn [Nat.sub firstn filter app]. destruct (c <? 0xA0)%N; reflexivity.
      * cbn [firstn app length] in M1, K1, HB. inv M1. rewrite K1 in *. cbn [firstn app length]. rewrite K2.
        rewrite firstn_app. replace (length rds - length (msg_queue s1) - length (key_queue s1)) with 0 by lia.
        cbn [firstn]. rewrite app_nil_r. reflexivity.
    + rewrite Q2, K2, app_length. unfold leaving_m in M1. unfold leaving_k in K1. destruct (msg_queue s) as [|c q].
      * cbn [firstn app length] in *. rewrite <- M1. cbn [length]. destruct (key_queue s) as [|c q]; [cbn [length] in HB; lia|].
        cbn [firstn app length] in *. inv K1. lia.
      * cbn [firstn app length] in *. inv M1. rewrite <- K1. lia.
Qed.
Print Assumptions C64_exact_delay_partial.

(** Full statement: a waiting code is sent within 144 ticks (16 codes and 128
    message characters).  False: messages typed meanwhile go first.  Here CTRL-FN9
    is pressed again and again and a code waits for 400 ticks. *)
Definition again : list (nat -> N) := hold 10 [(0, 6)] ++ hold 10 [(0, 6); (6, 6)].
Theorem C64_delay_bound_refuted : exists pre rds s s',
  run pre = Ok s /\ ticks rds s = Ok s' /\ length rds = 400 /\
  key_queue s = [16%N] /\ key_queue s' = [16%N] /\ keys_sent s = [] /\ keys_sent s' = [].
Proof.
  exists (hold 10 [(0, 6)] ++ hold 10 [(0, 6); (6, 6); (1, 1)]), (concat (repeat again 20)).
  assert (X : obs (fun s => (key_queue s, keys_sent s)) (run (hold 10 [(0, 6)] ++ hold 10 [(0, 6); (6, 6); (1, 1)])) = Some ([16%N], [])) by (vm_compute; reflexivity).
  assert (Y : obs (fun s => (key_queue s, keys_sent s)) (run ((hold 10 [(0, 6)] ++ hold 10 [(0, 6); (6, 6); (1, 1)]) ++ concat (repeat again 20))) = Some ([16%N], [])) by (vm_compute; reflexivity).
  apply obs_some in X. destruct X as [s [E X]]. apply obs_some in Y. destruct Y as [s' [E' Y]].
  exists s, s'. rewrite run_app, E in E'. apply bind_split in E'. destruct E' as [z [EZ E']]. assert (z = s) by congruence. subst z. clear EZ. split; [exact E|]. split; [exact E'|]. clear E E'.
  split; [reflexivity|]. repeat split; congruence.
Qed.
Print Assumptions C64_delay_bound_refuted.

(** A key waiting behind a message. *)
Example C64_example :
  obs (fun s => (length (msg_queue s), key_queue s)) (run (hold 10 [(0, 6)] ++ hold 10 [(0, 6); (6, 5); (1, 1)] ++ hold 2 [(0, 6)])) = Some (17, [16%N]) /\
  obs keys_sent (run (hold 10 [(0, 6)] ++ hold 10 [(0, 6); (6, 5); (1, 1)] ++ hold 19 [(0, 6)])) = Some [] /\
  obs keys_sent (run (hold 10 [(0, 6)] ++ hold 10 [(0, 6); (6, 5); (1, 1)] ++ hold 20 [(0, 6)])) = Some [16%N].
Proof. vm_compute. auto. Qed.
