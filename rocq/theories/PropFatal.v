(** Exactly when the shipped firmware leaves defined behaviour (C151). *)
From Coq Require Import List NArith ZArith Arith Bool Lia.
From Coq Require Import ZifyBool ZifyNat ZifyN.
From Verif Require Import Base Lib Buffer BufferSpec BufferProofs Repeat Devices DevSpec DevProofs
     Modifiers Hook KeymapData Asdf KeySpec KeyRef Obs PropDebounce Custom CustomSpec CustomRef PropCustom PropEvents
     PropKeysOut PropSubset.
Import ListNotations.
Local Open Scope outcome_scope.

(** ** Specification *)

(** The firmware of the first four shipped keymaps. *)
Definition four : N -> option (list setup_cmd) := choice PropKeysOut.first_four.

(** Mode switch 2, the key (8, 2), is accepted as closed while keyboard 0 or 1 is
    selected. *)
Definition fatal (e : setting) (t : nat * nat * bool) : bool :=
  let '(r, c, b) := t in (r =? 8) && (c =? 2) && b && (e_kb e <? 2)%N.
Fixpoint hits (e : setting) (ts : list (nat * nat * bool)) : bool :=
  match ts with
  | [] => false
  | t :: ts' => fatal e t || hits (after_event four e t) ts'
  end.
Definition closed_early (rds : list (nat -> N)) : bool := hits (at_start four) (transitions 9 8 [] rds).

(** ** Otherwise: the firmware of the first four keymaps *)
Lemma hits_app : forall l l' e, hits e (l ++ l') = hits e l || hits (fold_left (after_event four) l e) l'.
Proof.
  induction l as [|t l IH]; intros l' e; cbn [app hits fold_left]; auto. rewrite IH, orb_assoc. reflexivity.
Qed.

Lemma four_asks : forall e r c b i, (e_kb e < 4)%N -> r < 9 -> c < 8 -> fatal e (r, c, b) = false ->
  asks_for four e (r, c, b) = Some i -> (i < 4 \/ 6 <= i)%N.
Proof.
  intros e r c b i He Hr Hc HF H. unfold asks_for in H. destruct (decode (code_in four e r c)) eqn:D; try discriminate. inv H.
  destruct (ff_mapsel e r c n He Hr Hc D) as (A1&A2&A3). unfold fatal in HF.
  assert (NCS : (c = 0 \/ c = 1 \/ c = 2 \/ c = 3)) by lia. subst n r.
  assert (ECS : (e_kb e = 0 \/ e_kb e = 1 \/ e_kb e = 2 \/ e_kb e = 3)%N) by lia.
  destruct ECS as [E1 | [E1 | [E1 | E1]]]; rewrite E1 in *; destruct NCS as [-> | [-> | [-> | ->]]]; destruct b; cbn in HF;
    try discriminate; vm_compute; (left; reflexivity) || (right; discriminate).
Qed.
Lemma four_same : forall i, (i < 4 \/ 6 <= i)%N -> shipped i = four i.
Proof.
  intros i H. unfold shipped, four, choice, PropKeysOut.first_four.
  destruct (N.ltb_spec i 6), (N.ltb_spec i 4); try lia; reflexivity.
Qed.
Lemma four_kb : forall e t, (e_kb e < 4)%N -> (e_kb (after_event four e t) < 4)%N.
Proof.
  intros e [[r c] b] He.
  assert (CH : forall i, (e_kb (choose four i e) < 4)%N).
  { intros i. unfold choose. destruct (i =? e_kb e)%N; auto. unfold four, choice, PropKeysOut.first_four.
    destruct (N.ltb_spec i 4); auto. }
  unfold after_event. destruct b; [unfold after_press|unfold after_release]; destruct (decode (code_in four e r c)); auto.
Qed.
Lemma four_common : forall ts e, (e_kb e < 4)%N -> (forall r c b, In (r, c, b) ts -> r < 9 /\ c < 8) ->
  hits e ts = false -> only_common four shipped e ts.
Proof.
  induction ts as [|[[r c] b] ts IH]; intros e He HI HN; cbn [only_common]; auto. cbn [hits] in HN.
  destruct (HI r c b (or_introl eq_refl)) as [Hr Hc]. apply orb_false_iff in HN. destruct HN as [N1 N2]. split.
  - intros i H. apply four_same. eapply four_asks; eauto.
  - apply IH; [apply four_kb; auto|intros; apply (HI r0 c0 b0); right; auto|auto].
Qed.

Theorem C151_otherwise_as_four : forall rds, closed_early rds = false ->
  exists s s', c_run (choice PropKeysOut.first_four) rds = Ok s /\ run rds = Ok s' /\ events s' = events s /\
    k_cur s' = k_cur s /\ k_mod s' = k_mod s /\ k_last s' = k_last s /\
    (forall r c, r < 16 -> c < 8 -> down s' r c = down s r c).
Proof.
  intros rds HL. destruct ff_sound as [S1 S2].
  destruct (C150_unselected_keymaps 9 8 four shipped rds S1 S2) as (s&s'&A&B&X).
  - reflexivity.
  - apply four_common; [reflexivity| |exact HL]. intros r c b H. apply (transitions_in 9 8 rds [] r c b H).
  - exists s, s'. rewrite c_run_shipped in B. auto.
Qed.
Print Assumptions C151_otherwise_as_four.

(** ** Keyboard 4 or 5 selected *)
Definition far (g : gkb) : Prop := Tab shipped g /\ (4 <= g_cur g)%N.
Definition stuck (g : gkb) : Prop := far g /\ g_dn g 8 2 = true.
Definition same (g g' : gkb) : Prop :=
  g_cur g' = g_cur g /\ g_maps g' = g_maps g /\ g_hook g' = g_hook g /\ g_mod g' = g_mod g /\ g_dn g' = g_dn g.
Lemma same_stuck : forall g g', same g g' -> stuck g -> stuck g'.
Proof. intros g g' (A&B&C&D&F) ((T&L)&H). split; [split; [apply (Tab_eq shipped g); auto|rewrite A; auto]|]. rewrite F. auto. Qed.
Lemma same_trans : forall g h k, same g h -> same h k -> same g k.
Proof. intros g h k (A&B&C&D&F) (A'&B'&C'&D'&F'). repeat split; congruence. Qed.

Lemma stuck_which : forall g, far g -> exists k, (k = 4 \/ k = 5)%N /\ g_cur g = k /\ g_maps g = tm (setup_of k) /\ g_hook g = th (setup_of k).
Proof.
  intros g ([cs (A&B&C)]&L). unfold shipped in A. destruct (N.ltb_spec (g_cur g) 6); [|discriminate]. inv A.
  exists (g_cur g). split; [lia|auto].
Qed.
Lemma stuck_size : forall g, far g -> 8 < g_rows g <= 16 /\ g_cols g = 8.
Proof.
  intros g H. destruct (stuck_which g H) as (k&K&_&M&_). unfold g_rows, g_cols. rewrite M.
  pose proof (map_now_lt (g_mod g)) as HL. generalize dependent (map_now (g_mod g)). intros mi HL.
  assert (MC : mi = 0 \/ mi = 1 \/ mi = 2 \/ mi = 3) by lia.
  destruct K as [-> | ->]; destruct MC as [-> | [-> | [-> | ->]]]; vm_compute; split; try split; try reflexivity; repeat constructor.
Qed.
Lemma stuck_code : forall g r c, far g -> gcode r c g = Bad UKeymapsOob.
Proof.
  intros g r c H. destruct (stuck_which g H) as (k&K&Q&M&_). unfold gcode. rewrite M, Q.
  destruct K as [-> | ->]; reflexivity.
Qed.
Lemma stuck_hooks : forall g, far g -> nth HOOK_ROW_SCANNER (g_hook g) HUnset = HReadRow /\
  nth HOOK_OUTPUT (g_hook g) HUnset = HSend /\ nth HOOK_EACH_SCAN (g_hook g) HUnset = HNull.
Proof.
  intros g H. destruct (stuck_which g H) as (k&K&_&_&M). rewrite M. destruct K as [-> | ->]; vm_compute; auto.
Qed.

(** One key: a closed one is looked up; an open one only counts. *)
Lemma key_stuck : forall rd r c g, stuck g ->
  gkey shipped rd r c g = Bad UKeymapsOob \/
  exists g', gkey shipped rd r c g = Ok g' /\ same g g' /\
    (forall r' c', ~ (r' = r /\ c' = c) -> g_ct g' r' c' = g_ct g r' c') /\
    (r = 8 -> c = 2 -> g_ct g 8 2 <> 1%N /\ g_ct g' 8 2 = (g_ct g 8 2 - 1)%N).
Proof.
  intros rd r c g H. unfold gkey. cbv zeta. pose proof H as (F&DN). pose proof F as (T&L).
  destruct (Bool.eqb (reading rd r c) (g_dn g r c)) eqn:EQ.
  - destruct (reading rd r c) eqn:RD.
    + left. rewrite stuck_code by auto. reflexivity.
    + right. exists g. split; [reflexivity|]. split; [repeat split|]. split; [auto|].
      intros -> ->. rewrite DN in EQ. discriminate.
  - destruct (N.eqb_spec (g_ct g r c) 1).
    + left. rewrite stuck_code; [reflexivity|]. split; [apply (Tab_eq shipped g); auto|exact L].
    + right. eexists. split; [reflexivity|]. split; [repeat split|]. cbn [g_ct gp_ct]. unfold set2. split.
      * intros r' c' N. destruct ((r' =? r) && (c' =? c)) eqn:X; [lia|reflexivity].
      * intros -> ->. split; [auto|reflexivity].
Qed.

Lemma cols_stuck : forall n rd r c g, stuck g -> n + c = 8 ->
  gcols shipped n rd r c g = Bad UKeymapsOob \/
  exists g', gcols shipped n rd r c g = Ok g' /\ same g g' /\
    (r <> 8 \/ 2 < c -> g_ct g' 8 2 = g_ct g 8 2) /\
    (r = 8 -> c <= 2 -> g_ct g 8 2 <> 1%N /\ g_ct g' 8 2 = (g_ct g 8 2 - 1)%N).
Proof.
  induction n as [|n IH]; intros rd r c g H HN; cbn [gcols].
  - right. exists g. split; [reflexivity|]. split; [repeat split|]. split; [auto|]. intros _ X. lia.
  - rewrite (proj2 (stuck_size g (proj1 H))). destruct (Nat.ltb_spec c 8); [|lia].
    destruct (key_stuck rd r c g H) as [-> | (g1&E1&S1&O1&K1)]; [left; reflexivity|]. rewrite E1. cbn [bind].
    destruct (IH rd r (S c) g1 (same_stuck g g1 S1 H) ltac:(lia)) as [-> | (g2&E2&S2&O2&K2)]; [left; reflexivity|].
    right. exists g2. split; [exact E2|]. split; [eapply same_trans; eauto|]. split.
    + intros X. rewrite O2 by lia. apply O1. lia.
    + intros X Y. destruct (Nat.eq_dec c 2) as [Z|Z].
      * destruct (K1 X Z) as [A1 A2]. split; [exact A1|]. rewrite O2 by lia. exact A2.
      * destruct (K2 X ltac:(lia)) as [A1 A2]. rewrite (O1 8 2) in A1, A2 by lia. auto.
Qed.
Lemma rows_stuck : forall n rd r g, stuck g -> n + r = 16 ->
  grows shipped n rd r g = Bad UKeymapsOob \/
  exists g', grows shipped n rd r g = Ok g' /\ same g g' /\
    (8 < r -> g_ct g' 8 2 = g_ct g 8 2) /\
    (r <= 8 -> g_ct g 8 2 <> 1%N /\ g_ct g' 8 2 = (g_ct g 8 2 - 1)%N).
Proof.
  induction n as [|n IH]; intros rd r g H HN; cbn [grows].
  - right. exists g. split; [reflexivity|]. split; [repeat split|]. split; [auto|]. lia.
  - destruct (stuck_size g (proj1 H)) as [W _]. destruct (Nat.ltb_spec r (g_rows g)).
    + destruct (cols_stuck 8 rd r 0 g H eq_refl) as [-> | (g1&E1&S1&O1&K1)]; [left; reflexivity|]. rewrite E1. cbn [bind].
      destruct (IH rd (S r) g1 (same_stuck g g1 S1 H) ltac:(lia)) as [-> | (g2&E2&S2&O2&K2)]; [left; reflexivity|].
      right. exists g2. split; [exact E2|]. split; [eapply same_trans; eauto|]. split.
      * intros X. rewrite O2 by lia. apply O1. lia.
      * intros X. destruct (Nat.eq_dec r 8) as [Z|Z].
        -- destruct (K1 Z ltac:(lia)) as [A1 A2]. split; [exact A1|]. rewrite O2 by lia. exact A2.
        -- destruct (K2 ltac:(lia)) as [A1 A2]. rewrite O1 in A1, A2 by lia. auto.
    + right. exists g. split; [reflexivity|]. split; [repeat split|]. split; [auto|]. lia.
Qed.
Lemma send_stuck : forall g, stuck g -> exists g', gsend g = Ok g' /\ same g g' /\ g_ct g' = g_ct g.
Proof.
  assert (X : forall x g, far g -> exists g', gemit x g = Ok g' /\ same g g' /\ g_ct g' = g_ct g).
  { intros x g H. unfold gemit. destruct (x <? 0xA0)%N; [|exists g; repeat split].
    destruct (stuck_hooks g H) as (_&->&_). eexists. split; [reflexivity|]. repeat split. }
  intros g H. unfold gsend. cbv zeta. destruct (hd 0xA0 (g_qm g) =? 0xA0)%N.
  - destruct (X (hd 0xA0%N (g_qk g)) (gp_qk (tl (g_qk g)) (gp_qm (tl (g_qm g)) g))) as [g' (E1&S1&C1)].
    + destruct (proj1 H) as [T L]. split; [apply (Tab_eq shipped g); auto|exact L].
    + exists g'. split; [exact E1|]. split; [exact S1|exact C1].
  - destruct (X (hd 0xA0%N (g_qm g)) (gnote (EvDelayMs (g_delay g)) (gp_qm (tl (g_qm g)) g))) as [g' (E1&S1&C1)].
    + destruct (proj1 H) as [T L]. split; [apply (Tab_eq shipped g); auto|exact L].
    + exists g'. split; [exact E1|]. split; [exact S1|exact C1].
Qed.
Lemma tick_stuck : forall rd g, stuck g ->
  gtick shipped rd g = Bad UKeymapsOob \/
  exists g', gtick shipped rd g = Ok g' /\ stuck g' /\ g_ct g 8 2 <> 1%N /\ g_ct g' 8 2 = (g_ct g 8 2 - 1)%N.
Proof.
  intros rd g H. unfold gtick. destruct (send_stuck g H) as [g1 (E1&S1&C1)]. rewrite E1. cbn [bind].
  pose proof (same_stuck g g1 S1 H) as H1. destruct (stuck_hooks g1 (proj1 H1)) as (K1&_&K3).
  unfold gscan. rewrite K1. unfold ghook. rewrite K3. cbn [bind].
  destruct (rows_stuck 16 rd 0 g1 H1 eq_refl) as [-> | (g2&E2&S2&_&K2)]; [left; reflexivity|].
  right. exists g2. split; [exact E2|]. split; [apply (same_stuck g1 g2 S2 H1)|]. rewrite C1 in K2. apply K2. lia.
Qed.
Lemma ticks_stuck : forall rds g, stuck g ->
  gticks shipped rds g = Bad UKeymapsOob \/ exists g', gticks shipped rds g = Ok g' /\ stuck g'.
Proof.
  induction rds as [|rd rds IH]; intros g H; cbn [gticks]; [right; eauto|].
  destruct (tick_stuck rd g H) as [-> | (g1&E1&S1&_)]; [left; reflexivity|]. rewrite E1. cbn [bind]. auto.
Qed.
Lemma ticks_end : forall rds g, stuck g -> (1 <= g_ct g 8 2 <= N.of_nat (length rds))%N ->
  gticks shipped rds g = Bad UKeymapsOob.
Proof.
  induction rds as [|rd rds IH]; intros g H HC; cbn [gticks length] in *; [lia|].
  destruct (tick_stuck rd g H) as [-> | (g1&E1&S1&N1&N2)]; [reflexivity|]. rewrite E1. cbn [bind]. apply IH; auto. lia.
Qed.

(** ** Getting there *)
Lemma fatal_key : forall rd r c e g, Tab four g -> low g -> is_set e g -> r < 9 -> c < 8 ->
  hits e (ev1 g rd r c) = true -> exists g', gkey shipped rd r c g = Ok g' /\ stuck g'.
Proof.
  intros rd r c e g T L HS Hr Hc HA. unfold gkey. cbv zeta. unfold ev1, dbp, db in HA. cbn [fst snd] in HA.
  destruct (Bool.eqb (reading rd r c) (g_dn g r c)) eqn:EQ; cbn [fst] in HA.
  - rewrite Bool.eqb_reflx in HA. discriminate.
  - destruct (g_ct g r c =? 1)%N; cbn [fst] in HA; [|rewrite Bool.eqb_reflx in HA; discriminate].
    replace (Bool.eqb (g_dn g r c) (reading rd r c)) with false in HA
        by (destruct (g_dn g r c), (reading rd r c); auto).
    cbn [hits] in HA. rewrite orb_false_r in HA. unfold fatal in HA.
    assert (r = 8 /\ c = 2 /\ reading rd r c = true /\ (e_kb e < 2)%N) as (-> & -> & RD & KB) by lia. rewrite RD.
    set (g1 := gp_dn (set2 (g_dn g) 8 2 true) (gp_ct (set2 (g_ct g) 8 2 10%N) g)).
    assert (T1 : Tab four g1) by (apply (Tab_eq four g); auto).
    assert (S1 : is_set e g1) by exact HS. destruct ff_sound as [F1 F2].
    rewrite (set_code four 9 8 F1 F2 e g1 8 2 T1 S1 ltac:(lia) ltac:(lia)). cbn [bind].
    assert (CD : code_in four e 8 2 = 0xAA%N).
    { unfold code_in. assert (HM : map_in e < 4) by (unfold map_in; destruct (e_ctrl e), (e_shift e || e_lock e), (e_caps e); cbn; lia).
      generalize dependent (map_in e). intros mi HM.
      assert (MC : mi = 0 \/ mi = 1 \/ mi = 2 \/ mi = 3) by lia.
      assert (KC : (e_kb e = 0 \/ e_kb e = 1)%N) by lia.
      destruct KC as [-> | ->], MC as [-> | [-> | [-> | ->]]]; vm_compute; reflexivity. }
    rewrite CD. change (gpress shipped 0xAA g1) with (Ok (gselect shipped (u8 (N.setbit (g_cur g1) 2)) g1)).
    destruct S1 as [Q _]. assert (KC : (g_cur g1 = 0 \/ g_cur g1 = 1)%N) by lia.
    eexists. split; [reflexivity|]. unfold gselect.
    assert (exists k, (k = 4 \/ k = 5)%N /\ u8 (N.setbit (g_cur g1) 2) = k /\ (k =? g_cur g1)%N = false) as (k&K1&K2&K3).
    { destruct KC as [-> | ->]; [exists 4%N|exists 5%N]; auto. }
    rewrite K2, K3. assert (SK : shipped k = Some (setup_of k)) by (destruct K1 as [-> | ->]; reflexivity).
    destruct (gswitch_tabs shipped k g1 _ SK) as (B1&B2&B3). destruct (gswitch_same shipped k g1) as (D1&_).
    split; [split|].
    + exists (setup_of k). rewrite B3. auto.
    + rewrite B3. lia.
    + rewrite D1. reflexivity.
Qed.

Definition ends (o : outcome gkb) : Prop := o = Bad UKeymapsOob \/ exists g', o = Ok g' /\ stuck g'.

Lemma ev1_inside : forall g rd r c r' c' b, r < 9 -> c < 8 -> In (r', c', b) (ev1 g rd r c) -> r' < 9 /\ c' < 8.
Proof. intros g rd r c r' c' b Hr Hc H. apply ev1_in in H. destruct H as [-> ->]. auto. Qed.
Lemma row_inside : forall g rd r r' c' b, r < 9 -> In (r', c', b) (flat_map (ev1 g rd r) (seq 0 8)) -> r' < 9 /\ c' < 8.
Proof.
  intros g rd r r' c' b Hr H. apply in_flat_map in H. destruct H as [c [I H]]. apply in_seq in I.
  apply (ev1_inside g rd r c r' c' b); auto. lia.
Qed.
Lemma scan_inside : forall g rd r' c' b,
  In (r', c', b) (flat_map (fun r => flat_map (ev1 g rd r) (seq 0 8)) (seq 0 9)) -> r' < 9 /\ c' < 8.
Proof.
  intros g rd r' c' b H. apply in_flat_map in H. destruct H as [r [I H]]. apply in_seq in I.
  apply (row_inside g rd r r' c' b); [lia|exact H].
Qed.

Section Reach.
Let F1 := proj1 ff_sound.
Let F2 := proj2 ff_sound.

Lemma tab_kb : forall e g, Tab four g -> is_set e g -> (e_kb e < 4)%N.
Proof.
  intros e g [cs (A&_)] [H _]. rewrite H in A. unfold four, choice, PropKeysOut.first_four in A.
  destruct (N.ltb_spec (e_kb e) 4); [auto|discriminate].
Qed.

Lemma cols_fatal : forall n rd r c e g, Tab four g -> low g -> is_set e g -> r < 9 -> n + c = 8 ->
  hits e (flat_map (ev1 g rd r) (seq c (8 - c))) = true -> ends (gcols shipped n rd r c g).
Proof.
  induction n as [|n IH]; intros rd r c e g T L HS Hr HN HA; cbn [gcols].
  - replace (8 - c) with 0 in HA by lia. discriminate.
  - destruct (tab_size four 9 8 F2 g T) as [W1 W2]. rewrite W2. destruct (Nat.ltb_spec c 8); [|lia].
    replace (8 - c) with (S (8 - S c)) in HA by lia. cbn [seq flat_map] in HA. rewrite hits_app in HA.
    destruct (hits e (ev1 g rd r c)) eqn:HE; cbn [orb] in HA.
    + destruct (fatal_key rd r c e g T L HS Hr H HE) as [g1 (E1&S1)]. rewrite E1. cbn [bind].
      destruct (cols_stuck n rd r (S c) g1 S1 ltac:(lia)) as [-> | (g2&E2&S2&_)]; [left; reflexivity|].
      right. exists g2. split; [exact E2|]. eapply same_stuck; eauto.
    + rewrite (key_same four shipped 9 8 F1 F2 rd r c e g T L HS Hr H)
        by (apply four_common; [eapply tab_kb; eauto|intros r' c' b; apply ev1_inside; auto|exact HE]).
      destruct (key_events four 9 8 F1 F2 rd r c g T L Hr H) as [g1 (E1&T1&L1&X1)]. rewrite E1. cbn [bind].
      apply (IH rd r (S c) (fold_left (after_event four) (ev1 g rd r c) e)); auto; [|lia|].
      * eapply set_E; [exact X1|]. apply (fold_set four 9 8); auto. intros r' c' b. apply ev1_inside; auto.
      * replace (flat_map (ev1 g1 rd r) (seq (S c) (8 - S c))) with (flat_map (ev1 g rd r) (seq (S c) (8 - S c))); auto.
        rewrite !flat_map_concat_map. f_equal. apply map_ext_in. intros c' Hc'. apply in_seq in Hc'.
        destruct (gkey_frame four rd r c g g1 r c' E1 ltac:(lia)) as [A1 A2].
        unfold ev1, dbp. rewrite A1, A2. reflexivity.
Qed.

Lemma rows_fatal : forall n rd r e g, Tab four g -> low g -> is_set e g -> n + r = 16 ->
  hits e (flat_map (fun r => flat_map (ev1 g rd r) (seq 0 8)) (seq r (9 - r))) = true -> ends (grows shipped n rd r g).
Proof.
  induction n as [|n IH]; intros rd r e g T L HS HN HA; cbn [grows].
  - replace (9 - r) with 0 in HA by lia. discriminate.
  - destruct (tab_size four 9 8 F2 g T) as [W1 W2]. rewrite W1. destruct (Nat.ltb_spec r 9);
      [|replace (9 - r) with 0 in HA by lia; discriminate].
    replace (9 - r) with (S (9 - S r)) in HA by lia. cbn [seq flat_map] in HA.
    change (ev1 g rd r 0 ++ ev1 g rd r 1 ++ ev1 g rd r 2 ++ ev1 g rd r 3 ++ ev1 g rd r 4 ++ ev1 g rd r 5 ++ ev1 g rd r 6 ++ ev1 g rd r 7 ++ [])
      with (flat_map (ev1 g rd r) (seq 0 8)) in HA.
    rewrite hits_app in HA.
    destruct (hits e (flat_map (ev1 g rd r) (seq 0 8))) eqn:HE; cbn [orb] in HA.
    + destruct (cols_fatal 8 rd r 0 e g T L HS H eq_refl HE) as [-> | (g1&E1&S1)]; [left; reflexivity|]. rewrite E1. cbn [bind].
      destruct (rows_stuck n rd (S r) g1 S1 ltac:(lia)) as [-> | (g2&E2&S2&_)]; [left; reflexivity|].
      right. exists g2. split; [exact E2|]. eapply same_stuck; eauto.
    + rewrite (cols_same four shipped 9 8 F1 F2 8 rd r 0 e g T L HS H eq_refl)
        by (apply four_common; [eapply tab_kb; eauto|intros r' c' b; apply row_inside; auto|exact HE]).
      destruct (cols_events four 9 8 F1 F2 8 rd r 0 g T L H eq_refl) as [g1 (E1&T1&L1&X1)]. rewrite E1. cbn [bind].
      rewrite Nat.sub_0_r in X1.
      apply (IH rd (S r) (fold_left (after_event four) (flat_map (ev1 g rd r) (seq 0 8)) e)); auto; [|lia|].
      * eapply set_E; [exact X1|]. apply (fold_set four 9 8); auto. intros r' c' b. apply row_inside; auto.
      * replace (flat_map (fun r => flat_map (ev1 g1 rd r) (seq 0 8)) (seq (S r) (9 - S r)))
          with (flat_map (fun r => flat_map (ev1 g rd r) (seq 0 8)) (seq (S r) (9 - S r))); auto.
        rewrite !flat_map_concat_map. f_equal. apply map_ext_in. intros r' Hr'. apply in_seq in Hr'.
        rewrite !flat_map_concat_map. f_equal. apply map_ext_in. intros c' _.
        destruct (cols_frame four _ _ _ _ _ _ E1 r' c' ltac:(lia)) as [A1 A2].
        unfold ev1, dbp. rewrite A1, A2. reflexivity.
Qed.

Lemma tick_fatal : forall rd e g, Tab four g -> low g -> is_set e g ->
  hits e (flat_map (fun r => flat_map (ev1 g rd r) (seq 0 8)) (seq 0 9)) = true -> ends (gtick shipped rd g).
Proof.
  intros rd e g T L HS HA. unfold gtick. destruct (send_ok 9 four F1 g T) as [g1 (E1&T1&D1&D2)]. rewrite E1. cbn [bind].
  pose proof (send_E _ _ E1) as X1. destruct (scan_split 9 four F1 rd g1 T1) as [g2 (H2&T2&D3&D4&E2)].
  assert (HK : nth HOOK_ROW_SCANNER (g_hook g1) HUnset = HReadRow).
  { destruct T1 as [cs (A&_&C)]. rewrite C. unfold four, choice, PropKeysOut.first_four in A.
    destruct (N.ltb_spec (g_cur g1) 4); [|discriminate]. inv A.
    assert (KC : (g_cur g1 = 0 \/ g_cur g1 = 1 \/ g_cur g1 = 2 \/ g_cur g1 = 3)%N) by lia.
    destruct KC as [-> | [-> | [-> | ->]]]; vm_compute; reflexivity. }
  unfold gscan. rewrite HK, H2. cbn [bind].
  assert (X2 : E g g2) by (eapply E_trans; [exact X1|apply (E_hook _ _ _ _ (E_refl g1) H2)]).
  apply (rows_fatal 16 rd 0 e); auto.
  - unfold low in *. destruct X2 as [<- _]. auto.
  - eapply set_E; eauto.
  - rewrite Nat.sub_0_r. unfold ev1, dbp in *. rewrite D3, D4, D1, D2. exact HA.
Qed.

Lemma ticks_fatal : forall rds pre e g, Tab four g -> low g -> is_set e g ->
  (forall r c, r < 9 -> c < 8 -> dbp g r c = dstate (key_readings pre r c)) ->
  hits e (transitions 9 8 pre rds) = true -> ends (gticks shipped rds g).
Proof.
  induction rds as [|rd rds IH]; intros pre e g T L HS HD HA; cbn [gticks transitions] in *; [discriminate|].
  rewrite hits_app in HA.
  assert (FR : scan_events 9 8 pre rd = flat_map (fun r => flat_map (ev1 g rd r) (seq 0 8)) (seq 0 9)).
  { unfold scan_events. rewrite !flat_map_concat_map. f_equal. apply map_ext_in. intros r Hr. apply in_seq in Hr.
    rewrite !flat_map_concat_map. f_equal. apply map_ext_in. intros c Hc. apply in_seq in Hc.
    unfold key_event, ev1, accepted_after. rewrite key_readings_app.
    change (key_readings [rd] r c) with [reading rd r c]. rewrite dstate_snoc, <- HD by lia. reflexivity. }
  rewrite FR in HA.
  destruct (hits e (flat_map (fun r => flat_map (ev1 g rd r) (seq 0 8)) (seq 0 9))) eqn:HE; cbn [orb] in HA.
  - destruct (tick_fatal rd e g T L HS HE) as [-> | (g1&E1&S1)]; [left; reflexivity|]. rewrite E1. cbn [bind].
    apply ticks_stuck. exact S1.
  - rewrite (tick_same four shipped 9 8 F1 F2 rd e g T L HS)
      by (apply four_common; [eapply tab_kb; eauto|intros r' c' b; apply scan_inside|exact HE]).
    destruct (tick_events four 9 8 F1 F2 rd g T L) as [g1 (E1&T1&L1&X1)]. rewrite E1. cbn [bind].
    apply (IH (pre ++ [rd]) (fold_left (after_event four) (flat_map (fun r => flat_map (ev1 g rd r) (seq 0 8)) (seq 0 9)) e)); auto.
    + eapply set_E; [exact X1|]. apply (fold_set four 9 8); auto. intros r' c' b. apply scan_inside.
    + intros r c Hr Hc. rewrite (tick_dbp 9 four F1 8 (at_least_size four 9 8 F1 F2) rd g g1 r c T E1 Hr Hc).
      rewrite key_readings_app. change (key_readings [rd] r c) with [reading rd r c]. rewrite dstate_snoc, HD; auto.
Qed.
End Reach.

Lemma gticks_app : forall a b g, gticks shipped (a ++ b) g = bind (gticks shipped a g) (gticks shipped b).
Proof.
  induction a as [|x a IH]; intros b g; cbn [app gticks]; [reflexivity|].
  destruct (gtick shipped x g); cbn [bind]; auto.
Qed.

Lemma run_ends : forall rds, closed_early rds = true -> ends (grun shipped rds).
Proof.
  intros rds H. unfold grun. change (gboot shipped) with (gboot four). apply (ticks_fatal rds [] (at_start four)).
  - apply (tab_boot 9 four (proj1 ff_sound)).
  - apply (boot_low four).
  - apply (start_set four 9 (proj1 ff_sound)).
  - intros r c _ _. apply (boot_dbp four).
  - exact H.
Qed.
Lemma run_rel : forall rds, osim GRel (grun shipped rds) (run rds).
Proof. intros rds. rewrite <- c_run_shipped. eapply grun_sim. reflexivity. Qed.

(** Once closed while keyboard 0 or 1 is selected, keyboard 4 or 5 is selected and
    the switch is down, or a key was already looked up outside the table. *)
Theorem C151_at_once : forall rds, closed_early rds = true ->
  run rds = Bad UKeymapsOob \/
  exists s, run rds = Ok s /\ (k_cur s = 4%N \/ k_cur s = 5%N) /\ down s 8 2 = true.
Proof.
  intros rds H. pose proof (run_rel rds) as X. destruct (run_ends rds H) as [E | (g&E&S)]; rewrite E in X.
  - left. exact X.
  - right. destruct X as [s [ES RL]]. exists s. split; [exact ES|].
    rewrite (rt_cur _ _ (proj1 RL)), (gdown g s 8 2 RL) by lia. destruct S as [F D].
    destruct (stuck_which g F) as (k&K&->&_). auto.
Qed.
Print Assumptions C151_at_once.

(** And ten scans later at the latest it has happened, whatever is read. *)
Theorem C151_within_ten : forall rds rds', closed_early rds = true -> 10 <= length rds' ->
  run (rds ++ rds') = Bad UKeymapsOob.
Proof.
  intros rds rds' H HL. pose proof (run_rel (rds ++ rds')) as X.
  assert (Y : grun shipped (rds ++ rds') = Bad UKeymapsOob).
  { unfold grun. rewrite gticks_app. fold (grun shipped rds). pose proof (run_rel rds) as Z.
    destruct (run_ends rds H) as [E | (g&E&S)]; rewrite E in *; cbn [bind]; [reflexivity|].
    destruct Z as [s [ES RL]]. apply ticks_end; [exact S|]. destruct RL as [_ RS].
    destruct (nth_error (k_cnt s) (8 * 8 + 2)) as [v|] eqn:EV.
    - destruct (rs_cnt _ _ RS 8 2 v ltac:(lia) EV) as [<- B]. lia.
    - apply nth_error_None in EV. rewrite (rs_cntlen _ _ RS) in EV. lia. }
  rewrite Y in X. exact X.
Qed.
Print Assumptions C151_within_ten.

(** So this is exactly when the firmware is bound to fail. *)
Theorem C151_exactly_when : forall rds,
  (forall n, exists s, run (firstn n rds) = Ok s /\ (k_cur s < 4)%N) <-> closed_early rds = false.
Proof.
  assert (M : forall rds n, closed_early rds = false -> closed_early (firstn n rds) = false).
  { intros rds n H. unfold closed_early in *.
    assert (T : forall a b pre, transitions 9 8 pre (a ++ b) = transitions 9 8 pre a ++ transitions 9 8 (pre ++ a) b).
    { induction a as [|x a IH]; intros b pre; cbn [app transitions]; [rewrite app_nil_r; reflexivity|].
      rewrite IH, <- app_assoc, <- app_assoc. reflexivity. }
    rewrite <- (firstn_skipn n rds), T, hits_app in H. apply orb_false_iff in H. apply H. }
  intros rds. split.
  - intros H. destruct (closed_early rds) eqn:EC; [exfalso|reflexivity].
    destruct (H (length rds)) as [s [ES KC]]. rewrite firstn_all in ES.
    destruct (C151_at_once rds EC) as [X | (s'&X&K&_)]; rewrite X in ES; inv ES. lia.
  - intros H n. specialize (M rds n H). destruct (C151_otherwise_as_four _ M) as (s&s'&A&B&_&C&_).
    exists s'. split; [exact B|]. rewrite C.
    destruct (run_ok_g 9 four (proj1 ff_sound) (firstn n rds)) as (g&s2&_&T&A2&RL).
    unfold four in A2. rewrite A in A2. inv A2. rewrite (rt_cur _ _ (proj1 RL)). destruct T as [cs (Q&_)].
    unfold four, choice, PropKeysOut.first_four in Q. destruct (N.ltb_spec (g_cur g) 4); [auto|discriminate].
Qed.
Print Assumptions C151_exactly_when.

(** Switch 2 read closed in the first ten scans and never again: nine scans later
    all is still well, the tenth is one too many. *)
Example C151_example :
  closed_early (hold 10 [(8, 2)]) = true /\
  obs (fun s => (k_cur s, down s 8 2)) (run (hold 10 [(8, 2)] ++ hold 9 [])) = Some (4%N, true) /\
  run (hold 10 [(8, 2)] ++ hold 10 []) = Bad UKeymapsOob /\
  run (hold 10 [(8, 2)] ++ hold 1 [(8, 2)]) = Bad UKeymapsOob.
Proof. repeat split; vm_compute; reflexivity. Qed.

(** With switch 1 closed before it, keyboard 2 stays selected and nothing happens;
    with switch 3 neither. *)
Definition harmless : list (nat -> N) := hold 10 [(8, 1)] ++ hold 30 [(8, 1); (8, 2); (8, 3); (2, 2)] ++ hold 30 [(8, 1)] ++ hold 30 [(8, 3)].
Example C151_harmless_example :
  closed_early harmless = false /\ In (8, 2, true) (transitions 9 8 [] harmless) /\
  obs k_cur (run (firstn 40 harmless)) = Some 2%N /\ obs k_cur (run harmless) = Some 0%N.
Proof.
  split; [vm_compute; reflexivity|]. split; [|split; vm_compute; reflexivity].
  assert (T : transitions 9 8 [] harmless = [(8, 1, true); (2, 2, true); (8, 2, true); (8, 3, true); (2, 2, false); (8, 2, false); (8, 3, false);
    (8, 1, false); (8, 3, true)]) by (vm_compute; reflexivity).
  rewrite T. cbn. auto.
Qed.
