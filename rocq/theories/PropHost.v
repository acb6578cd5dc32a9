(** C56 for the whole keyboard: what a host on the parallel port receives. *)
From Coq Require Import List NArith ZArith Arith Bool Lia.
From Coq Require Import ZifyBool ZifyNat ZifyN.
From Verif Require Import Base Lib Buffer BufferSpec BufferProofs Repeat Devices DevSpec DevProofs
     Modifiers Hook KeymapData Asdf KeySpec KeyRef Obs Frames PropModState PropRepeatMode PropLeds PropHold.
From Verif Require Avr Arch328p Arch2560 PropArch328 PropArch2560 PropHost328 PropHost2560.
From Verif Require Import Host.
Import ListNotations.

(** Hosts tell codes apart. *)
Lemma bits8_in : forall b, (b < 8)%N -> In b bits8.
Proof. intros b H. unfold bits8. cbn [In]. lia. Qed.
Lemma lines_of_inj : forall c c', (c < 256)%N -> (c' < 256)%N -> lines_of c = lines_of c' -> c = c'.
Proof.
  intros c c' H H' E. apply N.bits_inj. intros b. destruct (N.ltb_spec b 8) as [L|L].
  - unfold lines_of in E. assert (X : forall l, map (fun b => if N.testbit c b then Avr.High else Avr.Low) l =
      map (fun b => if N.testbit c' b then Avr.High else Avr.Low) l -> In b l -> N.testbit c b = N.testbit c' b).
    { induction l as [|x l IH]; [intros _ []|]. cbn [map In]. intros Y [<-|Y']; [|apply IH; congruence].
      assert (Z : (if N.testbit c x then Avr.High else Avr.Low) = (if N.testbit c' x then Avr.High else Avr.Low)) by congruence.
      destruct (N.testbit c x), (N.testbit c' x); congruence. }
    apply (X _ E). apply bits8_in; auto.
  - rewrite <- (N.mod_small c 256), <- (N.mod_small c' 256) by auto. change 256%N with (2 ^ 8)%N.
    rewrite !N.mod_pow2_bits_high by auto. auto.
Qed.

(** Without a negative-polarity call the host hears the codes sent. *)
Lemma hear_sends : forall rise l data, ~ In EvStrobeNeg l -> hear rise Avr.Low data l = sends l.
Proof.
  intros rise. induction l as [|e l IH]; intros data H; auto. cbn [In] in H.
  assert (~ In EvStrobeNeg l) by tauto.
  destruct e; cbn [hear sends edge app]; rewrite ?IH by auto; auto. tauto.
Qed.

(** ** No negative-polarity call *)
Definition still (b : bool) (rd : nat -> N) : Prop := reading rd 8 2 = false /\ reading rd 8 6 = b.
Definition NoNeg (b : bool) (a : akb) : Prop :=
  last_low a /\ (a_cur a < 4)%N /\ (a_dn a 8 6 = true -> b = true) /\ ~ In EvStrobeNeg (a_log a).

Definition sel_codes (k : N) (m r c : nat) (code : N) : bool :=
  match decode code with AMapsel n => (r =? 8) && (c =? N.to_nat n) | _ => true end.
Lemma sel_codes_ok : all_codes sel_codes = true.
Proof. vm_compute. reflexivity. Qed.
Lemma outev_neg : forall l log, Forall outev l -> ~ In EvStrobeNeg log -> ~ In EvStrobeNeg (l ++ log).
Proof. intros l log F N I. apply in_app_or in I. destruct I as [I|I]; auto. rewrite Forall_forall in F. exact (F _ I). Qed.

Lemma noneg_select : forall b i a, (i < 4 \/ 6 <= i)%N -> NoNeg b a -> NoNeg b (aselect i a).
Proof.
  intros b i a Hi (L0 & A & B & C). destruct (select_init i a) as [->|[l [E F]]]; [repeat split; auto|].
  destruct (N.ltb_spec i 6) as [L|L].
  - unfold NoNeg, last_low. rewrite select_last, select_cur by auto. destruct (aselect_dn i a) as [-> _]. rewrite E.
    replace (i =? 4)%N with false in F by lia. split; [exact L0|]. split; [lia|]. split; auto. apply outev_neg; auto. cbn [In]. intros [X|X]; [discriminate|auto].
  - unfold aselect. destruct (i =? a_cur a)%N; [repeat split; auto|]. replace (i <? 6)%N with false by lia. repeat split; auto.
Qed.

Lemma setbit_range : forall k n, (k < 4)%N -> n <> 2%N -> (N.setbit k n < 4 \/ 6 <= N.setbit k n)%N.
Proof.
  intros k n Hk Hn. destruct (N.ltb_spec n 2) as [L|L].
  - left. assert (n = 0 \/ n = 1)%N as [-> | ->] by lia; assert (k = 0 \/ k = 1 \/ k = 2 \/ k = 3)%N as [-> |[-> |[-> | ->]]] by lia;
      reflexivity.
  - right. assert (N.testbit (N.setbit k n) n = true) by apply N.setbit_eq.
    destruct (N.le_gt_cases 6 (N.setbit k n)) as [|G]; auto. exfalso.
    rewrite N.bits_above_log2 in H; [discriminate|]. apply N.le_lt_trans with 2%N; [|lia].
    apply N.log2_le_mono with (b := 5%N). lia.
Qed.
Lemma clearbit_range : forall k n, (k < 4)%N -> (N.clearbit k n < 4)%N.
Proof.
  intros k n H. apply N.le_lt_trans with k; auto. apply N.ldiff_le. apply N.bits_inj. intros i.
  rewrite N.ldiff_spec, N.clearbit_eqb, N.bits_0. destruct (N.testbit k i), (n =? i)%N; auto.
Qed.

Lemma noneg_inv : forall b rds a, Forall (still b) rds -> arun rds = Some a -> NoNeg b a.
Proof.
  intros b. apply (ainv (still b)).
  - split; [exact (N.le_refl 0xA0)|]. split; [reflexivity|]. split; [discriminate|]. cbn. intros [X|[]]. discriminate.
  - intros x (L0 & A & B & C). unfold NoNeg, last_low. rewrite send_last, send_cur. destruct (asend_dn x) as [-> _]. split; [exact L0|]. split; auto. split; auto.
    unfold asend. destruct (a_qm x); [|cbn; intros X; repeat destruct X as [X|X]; try discriminate; auto]. destruct (a_qk x); [exact C|].
    destruct (n <? 0xA0)%N; [cbn; intros [X|X]; [discriminate|auto]|exact C].
  - intros x y H. exact H.
  - intros rd r c x _ (L0 & A & B & C) Hr Hc Hk _ _. unfold NoNeg. destruct (aheld_dn (code_now x r c) x) as [-> _].
    rewrite held_cur, held_log by auto. split; [apply held_last_low; auto|auto].
  - intros rd r c x [S1 S2] (L0 & A & B & C) Hr Hc Hk HG HD.
    pose proof (code_now_check _ out_codes_ok x r c Hk Hr Hc) as O.
    pose proof (code_now_check _ strobe_codes_ok x r c Hk Hr Hc) as SC. unfold strobe_codes in SC.
    pose proof (code_now_check _ sel_codes_ok x r c Hk Hr Hc) as LC. unfold sel_codes in LC.
    assert (Y : NoNeg b (accept r c true x)).
    { split; [exact L0|]. split; [exact A|]. split; [|exact C]. cbn [a_dn accept put_dn put_ct]. unfold set2.
      destruct ((8 =? r) && (6 =? c)) eqn:E; [|exact B]. intros _.
      assert (r = 8 /\ c = 6) as [-> ->] by (clear -E; lia). congruence. }
    destruct (decode (code_now x r c)) eqn:DC;
      try (destruct Y as (Y0 & Y1 & Y2 & Y3); unfold NoNeg; rewrite press_cur by (intros; congruence);
           destruct (apress_dn (code_now x r c) (accept r c true x)) as [-> _];
           destruct (press_quiet _ _ _ _ _ (accept r c true x) O Hk) as [l [-> L]]; try (intros; congruence);
           split; [apply press_last_low; exact L0|split; [exact Y1|split; [exact Y2|apply outev_neg; [apply free_outev; auto|exact Y3]]]]; fail).
    + rewrite (press_act _ _ _ DC) by discriminate. unfold aaction_on. rewrite DC. destruct Y as (Y0 & Y1 & Y2 & Y3).
      unfold NoNeg, last_low, atoggle_caps. cbn [a_last a_cur a_log a_dn put_mod].
      match goal with |- context [aact ?f ?v ?z] => destruct (aact_log f v z) as [l [-> L]];
        rewrite (aact_last f v z), (aact_cur f v z); destruct (aact_dn f v z) as [-> _] end.
      split; [exact Y0|split; [exact Y1|split; [exact Y2|apply outev_neg; [exact L|exact Y3]]]].
    + rewrite (press_act _ _ _ DC) by discriminate. unfold aaction_on. rewrite DC. apply noneg_select; auto.
      apply setbit_range; [exact A|]. intros ->. assert (r = 8 /\ c = 2) as [-> ->] by (clear -LC; lia). congruence.
    + rewrite (press_act _ _ _ DC) by discriminate. unfold aaction_on. rewrite DC.
      destruct Y as (Y0 & Y1 & Y2 & Y3). split; [exact Y0|split; [exact Y1|split; [exact Y2|]]]. cbn. intros [X|X]; [discriminate|apply Y3; exact X].
  - intros rd r c x [S1 S2] (L0 & A & B & C) Hr Hc Hk HG HD.
    pose proof (code_now_check _ strobe_codes_ok x r c Hk Hr Hc) as SC. unfold strobe_codes in SC.
    assert (Y : NoNeg b (accept r c false x)).
    { split; [exact L0|]. split; [exact A|]. split; [|exact C]. cbn [a_dn accept put_dn put_ct]. unfold set2.
      destruct ((8 =? r) && (6 =? c)); [discriminate|exact B]. }
    destruct (decode (code_now x r c)) eqn:DC;
      try (destruct Y as (Y0 & Y1 & Y2 & Y3); unfold NoNeg;
           rewrite release_cur, release_quiet by (auto; intros; congruence);
           destruct (arelease_dn (code_now x r c) (accept r c false x)) as [-> _];
           split; [apply release_last_low; exact L0|split; [exact Y1|split; [exact Y2|exact Y3]]]; fail).
    + rewrite (release_act _ _ _ DC) by discriminate. unfold aaction_off. rewrite DC. apply noneg_select; auto.
      left. apply clearbit_range. exact A.
    + exfalso. assert (r = 8 /\ c = 6) as [-> ->] by (clear -SC; lia). rewrite B in S2 by exact HD. congruence.
Qed.

(** ** C56 *)
(** Full claim: whatever the keyboard does, the host latches exactly the codes
    sent.  Proved here for runs in which keyboard-select switch 2 stays open and
    the strobe-polarity switch is not moved, for hosts latching on either
    edge, and for any interleaving of the calls made by the keyboard with row
    reads.  Missing: moving the polarity switch, which is refuted below;
    C56_latch_328p and C56_latch_2560 say exactly what is latched then. *)
Theorem C56_host_gets_sent_partial : forall b rds s, run rds = Ok s -> Forall (still b) rds ->
  (forall rise ser x h0 l, Avr.at_reset h0 -> events s = EvArchInit :: PropHost328.calls l ->
     latched rise Avr.PB 6 Avr.PD (Avr.hist (Arch328p.steps (PropArch328.mk false ser x) (Arch328p.OCall EvArchInit :: l) h0)) = map lines_of (sent s)) /\
  (forall rise x h0 l, Avr.at_reset h0 -> events s = EvArchInit :: PropHost2560.calls l ->
     latched rise Avr.PB 4 Avr.PH (Avr.hist (Arch2560.steps (PropArch2560.mk false x) (Arch2560.OCall EvArchInit :: l) h0)) = map lines_of (sent s)).
Proof.
  intros b rds s H HF. destruct (reach _ _ H) as [a [A RL]]. destruct (noneg_inv _ _ _ HF A) as (_ & _ & _ & N).
  assert (N' : ~ In EvStrobeNeg (events s)) by (rewrite (events_ok _ _ RL), <- in_rev; exact N).
  split; intros rise.
  - intros ser x h0 l R E. rewrite PropHost328.C56_latch_328p by auto. rewrite hear_sends; [unfold sent; rewrite E; reflexivity|].
    intros X. apply N'. rewrite E. right. auto.
  - intros x h0 l R E. rewrite PropHost2560.C56_latch_2560 by auto. rewrite hear_sends; [unfold sent; rewrite E; reflexivity|].
    intros X. apply N'. rewrite E. right. auto.
Qed.
Print Assumptions C56_host_gets_sent_partial.

(** The calls of a run, without row reads in between. *)
Definition bare (s : kb) : list Arch328p.op := map Arch328p.OCall (tl (events s)).
Definition received (rise : bool) (s : kb) : list (list Avr.drv) :=
  latched rise Avr.PB 6 Avr.PD (Avr.hist (Arch328p.steps (PropArch328.mk false false (fun _ => 0%N)) (Arch328p.OCall EvArchInit :: bare s) PropArch328.hw0)).

(** Two keys typed with the polarity switch closed. *)
Example C56_example : let rds := hold 12 [(8, 6); (1, 1)] ++ hold 12 [(8, 6)] ++ hold 12 [(8, 6); (2, 2)] ++ hold 4 [(8, 6)] in
  Forall (still true) rds /\ Avr.at_reset PropArch328.hw0 /\
  obs (fun s => (sent s, events s, received true s, received false s)) (run rds) =
  Some ([112; 109]%N, [EvArchInit; EvStrobePos; EvSend 112; EvSend 109], map lines_of [112; 109]%N, map lines_of [112; 109]%N).
Proof.
  split; [|split; [repeat split|vm_compute; reflexivity]].
  assert (X : forallb (fun rd => negb (reading rd 8 2) && reading rd 8 6)
    (hold 12 [(8, 6); (1, 1)] ++ hold 12 [(8, 6)] ++ hold 12 [(8, 6); (2, 2)] ++ hold 4 [(8, 6)]) = true) by (vm_compute; reflexivity).
  rewrite forallb_forall in X. apply Forall_forall. intros rd H. specialize (X rd H). apply andb_prop in X. destruct X as [X Y].
  split; [destruct (reading rd 8 2); [discriminate|auto]|auto].
Qed.

(** One key typed, then the polarity switch opened: a host latching on rising
    edges receives the code twice. *)
Theorem C56_host_gets_sent_refuted : exists rds s l h0, run rds = Ok s /\ Avr.at_reset h0 /\ events s = EvArchInit :: PropHost328.calls l /\
  sent s = [112%N] /\
  latched true Avr.PB 6 Avr.PD (Avr.hist (Arch328p.steps (PropArch328.mk false false (fun _ => 0%N)) (Arch328p.OCall EvArchInit :: l) h0)) =
    [lines_of 112; lines_of 112].
Proof.
  exists (hold 12 [(8, 6); (1, 1)] ++ hold 12 [(8, 6)] ++ hold 12 []).
  assert (X : obs (fun s => (events s, sent s, received true s)) (run (hold 12 [(8, 6); (1, 1)] ++ hold 12 [(8, 6)] ++ hold 12 [])) =
    Some ([EvArchInit; EvStrobePos; EvSend 112; EvStrobeNeg], [112%N], [lines_of 112; lines_of 112])) by (vm_compute; reflexivity).
  apply obs_some in X. destruct X as [s [E X]]. exists s, (bare s), PropArch328.hw0. split; [exact E|]. split; [repeat split|].
  apply pair_inj in X. destruct X as [X X3]. apply pair_inj in X. destruct X as [X1 X2].
  split; [|split; [exact X2|exact X3]]. unfold bare. rewrite X1. reflexivity.
Qed.
Print Assumptions C56_host_gets_sent_refuted.
