(** What the keys of the six shipped keymaps do to lamps and output lines (C149). *)
From Coq Require Import List NArith ZArith Arith Bool Lia.
From Coq Require Import ZifyBool ZifyNat ZifyN.
From Verif Require Import Base Lib Buffer Repeat Devices Modifiers Hook KeymapData Asdf KeySpec Obs PropDebounce
     Custom CustomSpec CustomRef PropCustom PropEvents PropFlow PropExact PropBoard PropAllCalls PropLamps PropOnce PropRate PropLegends.
Import ListNotations.

(** ** Specification *)
(** Everything but sending and the pauses of messages. *)
Definition worked (x : event) : bool := match x with EvSend _ | EvDelayMs _ => false | _ => true end.
(** When keyboard [k] is set up: 0 classic, 1 classic caps, 2 Apple II, 3 Apple II
    caps, 4 Sol-20, 5 ACE 1000.  Three of them invert CAPS LOCK ([caps] before) and
    show it, the Sol-20 asks for the negative strobe. *)
Definition bit (b : bool) : N := if b then 1%N else 0%N.
Definition set_up (k : N) (caps : bool) : list event :=
  EvArchInit ::
  match k with
  | 2%N => [EvOut LED1 (bit (negb caps))]
  | 4%N => [EvOut LED1 (bit (negb caps)); EvStrobeNeg]
  | 5%N => [EvOut LED3 (bit (negb caps))]
  | _ => []
  end.
(** The functions of keys, whatever is printed on them. *)
Inductive purpose := PReset | PClear | PBreak | PLocal | PCaps | PShift | PShiftLock | PStrobe | PNone.
(** Key ([r],[c]) of keyboard [k]; one key of the classic and Apple keyboards
    resets with CTRL and clears the screen with SHIFT. *)
Definition purpose_of (k : N) (shift ctrl : bool) (r c : nat) : purpose :=
  let reset_or_clear := if ctrl then PReset else if shift then PClear else PNone in
  match k, r, c with
  | _, 8, 6 => PStrobe
  | 0%N, 2, 0 | 1%N, 2, 0 | 2%N, 6, 2 | 3%N, 6, 2 => reset_or_clear
  | 0%N, 5, 2 | 2%N, 0, 0 | 4%N, 2, 0 | 5%N, 0, 5 => PCaps
  | 4%N, 1, 6 => if ctrl then PReset else PNone
  | 4%N, 6, 0 => PBreak
  | 4%N, 9, 0 => PLocal
  | 4%N, 0, 1 => PShiftLock
  | 4%N, 2, 1 | 4%N, 3, 4 => PShift
  | _, _, _ => PNone
  end.
(** The lamp for CAPS LOCK. *)
Definition caps_lamp (k : N) : nat := match k with 0%N | 5%N => LED3 | _ => LED1 end.
(** What pressing ([b]) and releasing does; [caps] and [loc] are CAPS LOCK and
    LOCAL before. *)
Definition touches (k : N) (p : purpose) (caps loc b : bool) : list event :=
  match p, b with
  | PReset, true => [EvOut OUT3_OPEN_HI 0; EvPulseShort; EvOut OUT3_OPEN_HI 1]
  | PClear, true => [EvOut OUT1_OPEN_LO 1; EvPulseLong; EvOut OUT1_OPEN_LO 0]
  | PBreak, true => [EvOut OUT2 0; EvPulseLong; EvOut OUT2 1]
  | PLocal, true => [EvOut LED2 (bit (negb loc)); EvOut OUT1 (bit loc)]
  | PCaps, true => [EvOut (caps_lamp k) (bit (negb caps))]
  | PShiftLock, true => [EvOut LED3 1]
  | PShift, _ => [EvOut LED3 0]
  | PStrobe, true => [EvStrobePos]
  | PStrobe, false => [EvStrobeNeg]
  | _, _ => []
  end.
(** All key transitions in order; [e] are the modes and the selected keyboard of
    C100, [pick] says which keymap each setting of the switches selects. *)
Definition kind (pick : N -> option N) (e : setting) : N := match pick (e_kb e) with Some k => k | None => 0%N end.
Fixpoint panel_calls (pick : N -> option N) (e : setting) (loc : bool) (ts : list (nat * nat * bool)) : list event :=
  match ts with
  | [] => []
  | (r, c, b) :: ts =>
      let k := kind pick e in
      let p := purpose_of k (e_shift e || e_lock e) (e_ctrl e) r c in
      let e' := after_event (choice pick) e (r, c, b) in
      if (e_kb e' =? e_kb e)%N
      then touches k p (e_caps e) loc b ++ panel_calls pick e' (match p, b with PLocal, true => negb loc | _, _ => loc end) ts
      else set_up (kind pick e') (e_caps e) ++ panel_calls pick e' false ts
  end.

(** ** Proofs *)
(** The devices on the panel; [a] and [l] are the levels of the lamps for CAPS
    LOCK and SHIFT LOCK. *)
Definition devs_of (k : N) (a l loc : bool) : list device :=
  match k with
  | 0%N => [mkDevice OUT1_OPEN_LO VOUT2 0; mkDevice OUT3_OPEN_HI VOUT1 1; mkDevice LED3 VCAPS_LED (bit a); mkDevice LED1 VLED1 1]
  | 1%N => [mkDevice OUT1_OPEN_LO VOUT2 0; mkDevice OUT3_OPEN_HI VOUT1 1; mkDevice LED3 VLED1 0; mkDevice LED1 VLED1 1]
  | 2%N => [mkDevice OUT1_OPEN_LO VOUT2 0; mkDevice OUT3_OPEN_HI VOUT1 1; mkDevice LED3 VLED2 0; mkDevice LED1 VCAPS_LED (bit a)]
  | 3%N => [mkDevice OUT1_OPEN_LO VOUT2 0; mkDevice OUT3_OPEN_HI VOUT1 1; mkDevice LED3 VLED2 0; mkDevice LED1 VLED1 0]
  | 4%N => [mkDevice OUT2 VOUT2 1; mkDevice OUT3_OPEN_HI VOUT1 1; mkDevice LED2 VOUT3 (bit loc); mkDevice OUT1 VOUT3 (bit (negb loc));
            mkDevice LED3 VSHIFT_LED (bit l); mkDevice LED1 VCAPS_LED (bit a)]
  | _ => [mkDevice OUT1_OPEN_LO VOUT2 0; mkDevice OUT3_OPEN_HI VOUT1 1; mkDevice LED3 VCAPS_LED (bit a); mkDevice LED1 VLED1 1]
  end.
Definition first_panel (k : N) : panel := fst (sets_up (setup_of k) false (bare_panel 0)).
Definition panel_is (k : N) (loc : bool) (n : panel) : Prop :=
  exists a l, n_devices n = devs_of k a l loc /\ n_does n = n_does (first_panel k).

Lemma device_eq : forall a b : device, {a = b} + {a <> b}.
Proof. decide equality; [apply N.eq_dec|apply Nat.eq_dec|apply Nat.eq_dec]. Defined.
Lemma event_eq : forall a b : event, {a = b} + {a <> b}.
Proof. decide equality; solve [apply N.eq_dec|apply Nat.eq_dec]. Defined.

Lemma put_does : forall v f n, n_does (fst (put v f n)) = n_does n /\ n_pause (fst (put v f n)) = n_pause n.
Proof. intros. split; reflexivity. Qed.
Lemma works_does : forall v f n, n_does (fst (works v f n)) = n_does n /\ n_pause (fst (works v f n)) = n_pause n.
Proof. intros v f n. destruct f; split; reflexivity. Qed.
Lemma selects_sole : forall k i e n, e_kb e = 0%N -> selects (sole k) i e n = (n, []).
Proof.
  intros k i e n E. unfold selects. rewrite E. destruct (i =? 0)%N eqn:Z; [reflexivity|].
  unfold sole, choice. rewrite Z. reflexivity.
Qed.
Lemma acts_does : forall k e n v, e_kb e = 0%N -> n_does (fst (acts (sole k) e n v)) = n_does n.
Proof.
  intros k e n [[r c] m] E. unfold acts. destruct m; [| |reflexivity];
    destruct (decode _); try reflexivity; try (apply works_does); rewrite selects_sole by exact E; reflexivity.
Qed.
Definition move_of (b : bool) : move := if b then Press else Release.
Definition loc_after (p : purpose) (b loc : bool) : bool := match p, b with PLocal, true => negb loc | _, _ => loc end.
Definition step_b (k : N) (e : setting) (a l loc : bool) (r c : nat) (b : bool) : bool :=
  let p := purpose_of k (e_shift e || e_lock e) (e_ctrl e) r c in
  let a' := match p, b with PCaps, true => negb (e_caps e) | _, _ => a end in
  let l' := match p, b with PShiftLock, true => true | PShift, _ => false | _, _ => l end in
  let x := acts (sole k) e (mkPanel (devs_of k a l loc) (n_does (first_panel k)) 0) (r, c, move_of b) in
  (if list_eq_dec device_eq (n_devices (fst x)) (devs_of k a' l' (loc_after p b loc)) then true else false) &&
  (if list_eq_dec event_eq (snd x) (touches k p (e_caps e) loc b) then true else false).
Lemma steps_b : forallb (fun k => forallb (fun e => forallb (fun a => forallb (fun l => forallb (fun loc => forallb (fun r => forallb (fun c => forallb (fun b =>
  step_b k e a l loc r c b) [true; false]) (seq 0 8)) (seq 0 (height k))) [true; false]) [true; false]) [true; false]) modes) [0; 1; 2; 3; 4; 5]%N = true.
Proof. vm_compute. reflexivity. Qed.
Lemma bool_in : forall b : bool, In b [true; false].
Proof. intros []; cbn; auto. Qed.
(** The pause does not matter. *)
Lemma acts_pause : forall k e n q v, e_kb e = 0%N ->
  n_devices (fst (acts (sole k) e (mkPanel (n_devices n) (n_does n) q) v)) = n_devices (fst (acts (sole k) e n v)) /\
  snd (acts (sole k) e (mkPanel (n_devices n) (n_does n) q) v) = snd (acts (sole k) e n v).
Proof.
  intros k e n q [[r c] m] E. unfold acts. destruct m; [| |split; reflexivity];
    (destruct (decode _) as [| | | | | | | |j| | |j|j| |]; try (split; reflexivity);
     [rewrite !selects_sole by exact E; split; reflexivity|..]); cbn [n_does];
    unfold works; destruct (n_does n _); split; reflexivity.
Qed.
Lemma step_ok : forall k e loc r c b n, (k < 6)%N -> e_kb e = 0%N -> r < height k -> c < 8 -> panel_is k loc n ->
  let p := purpose_of k (e_shift e || e_lock e) (e_ctrl e) r c in
  panel_is k (loc_after p b loc) (fst (acts (sole k) e n (r, c, move_of b))) /\
  snd (acts (sole k) e n (r, c, move_of b)) = touches k p (e_caps e) loc b.
Proof.
  intros k e loc r c b n Hk He Hr Hc (a&l&N1&N2) p.
  pose proof steps_b as F. rewrite forallb_forall in F. specialize (F k (in_six k Hk)).
  rewrite forallb_forall in F. specialize (F e (modes_all e He)).
  rewrite forallb_forall in F. specialize (F a (bool_in a)).
  rewrite forallb_forall in F. specialize (F l (bool_in l)).
  rewrite forallb_forall in F. specialize (F loc (bool_in loc)).
  rewrite forallb_forall in F. specialize (F r ltac:(apply in_seq; lia)).
  rewrite forallb_forall in F. specialize (F c ltac:(apply in_seq; lia)).
  rewrite forallb_forall in F. specialize (F b (bool_in b)).
  unfold step_b in F. fold p in F. rewrite <- N1, <- N2 in F.
  destruct (acts_pause k e n 0 (r, c, move_of b) He) as [A1 A2]. rewrite A1, A2 in F.
  apply andb_prop in F as [F1 F2].
  destruct (list_eq_dec device_eq _ _) as [E1|]; [|discriminate].
  destruct (list_eq_dec event_eq _ _) as [E2|]; [|discriminate].
  split; [|exact E2]. unfold panel_is. do 2 eexists. split; [exact E1|]. rewrite (acts_does k e n) by exact He. exact N2.
Qed.

(** Selecting a keyboard. *)
Lemma sets_up_ok : forall k caps q, (k < 6)%N ->
  panel_is k false (fst (sets_up (setup_of k) caps (bare_panel q))) /\ EvArchInit :: snd (sets_up (setup_of k) caps (bare_panel q)) = set_up k caps.
Proof.
  intros k caps q Hk. pose proof (in_six k Hk) as I. cbn [In] in I. clear Hk.
  assert (X : exists a l, n_devices (fst (sets_up (setup_of k) caps (bare_panel q))) = devs_of k a l false).
  { destruct I as [<-|[<-|[<-|[<-|[<-|[<-|[]]]]]]].
    - exists false, false. destruct caps; reflexivity.
    - exists false, false. destruct caps; reflexivity.
    - exists (negb caps), false. destruct caps; reflexivity.
    - exists false, false. destruct caps; reflexivity.
    - exists (negb caps), false. destruct caps; reflexivity.
    - exists (negb caps), false. destruct caps; reflexivity. }
  destruct X as (a&l&X). split.
  - exists a, l. split; [exact X|]. clear X. destruct I as [<-|[<-|[<-|[<-|[<-|[<-|[]]]]]]]; destruct caps; reflexivity.
  - destruct I as [<-|[<-|[<-|[<-|[<-|[<-|[]]]]]]]; destruct caps; reflexivity.
Qed.
Section Choice.
Variable pick : N -> option N.
Variable R : nat.
Hypothesis HA : alike pick R.
Lemma picks : forall i k, pick i = Some k -> (i < 4)%N /\ (k < 6)%N /\ height k = R.
Proof. intros i k E. destruct HA as [_ H]. exact (H i k E). Qed.
Lemma select_ok : forall i e n loc k, pick (e_kb e) = Some k -> panel_is k loc n ->
  let e' := choose (choice pick) i e in
  pick (e_kb e') <> None /\
  if (e_kb e' =? e_kb e)%N then selects (choice pick) i e n = (n, [])
  else panel_is (kind pick e') false (fst (selects (choice pick) i e n)) /\ snd (selects (choice pick) i e n) = set_up (kind pick e') (e_caps e).
Proof.
  intros i e n loc k HK HP. cbv zeta. unfold choose, selects. destruct (N.eqb_spec i (e_kb e)) as [->|NE].
  - rewrite N.eqb_refl. split; [congruence|reflexivity].
  - unfold choice at 1 3 5. unfold choice. destruct (pick i) as [j|] eqn:EI; cbn [e_kb].
    + split; [congruence|]. replace (i =? e_kb e)%N with false by (clear -NE; lia).
      destruct (sets_up_ok j (e_caps e) (n_pause n) (proj1 (proj2 (picks i j EI)))) as [S1 S2].
      unfold kind. cbn [e_kb]. rewrite EI. destruct (sets_up _ _ _) as [n1 l1]. cbn [fst snd] in *. split; assumption.
    + split; [congruence|]. rewrite N.eqb_refl. reflexivity.
Qed.
Lemma event_ok : forall e n loc r c b k, pick (e_kb e) = Some k -> panel_is k loc n -> r < R -> c < 8 ->
  let p := purpose_of k (e_shift e || e_lock e) (e_ctrl e) r c in
  let e' := after_event (choice pick) e (r, c, b) in
  let x := acts (choice pick) e n (r, c, move_of b) in
  pick (e_kb e') <> None /\
  if (e_kb e' =? e_kb e)%N then panel_is k (loc_after p b loc) (fst x) /\ snd x = touches k p (e_caps e) loc b
  else panel_is (kind pick e') false (fst x) /\ snd x = set_up (kind pick e') (e_caps e).
Proof.
  intros e n loc r c b k HK HP Hr Hc p e' x. destruct (picks _ _ HK) as (_&K6&KH).
  destruct (step_ok k (on_0 e) loc r c b n K6 eq_refl ltac:(lia) Hc HP) as [S1 S2].
  cbn [on_0 e_shift e_lock e_ctrl e_caps] in S1, S2. fold p in S1, S2.
  pose proof (code_sole pick k e r c HK) as CC.
  assert (D : (exists i, e' = choose (choice pick) i e /\ x = selects (choice pick) i e n /\ acts (sole k) (on_0 e) n (r, c, move_of b) = (n, [])) \/
    (e_kb e' = e_kb e /\ x = acts (sole k) (on_0 e) n (r, c, move_of b))).
  { unfold e', x, after_event, acts, after_press, after_release. rewrite CC. destruct b; cbn [move_of];
      (destruct (decode (code_in (sole k) (on_0 e) r c)) as [| | | | | | | |j| | |j|j| |]; try (right; split; reflexivity);
       left; eexists; split; [reflexivity|split; [reflexivity|]]; apply selects_sole; reflexivity). }
  destruct D as [(i&D1&D2&D3)|[D1 D2]].
  - destruct (select_ok i e n loc k HK HP) as [T1 T2]. rewrite <- D1, <- D2 in *. split; [exact T1|].
    destruct (e_kb e' =? e_kb e)%N; [|exact T2]. rewrite T2. rewrite D3 in S1, S2. split; assumption.
  - rewrite D1, N.eqb_refl, D2. split; [congruence|]. split; assumption.
Qed.
Lemma moves_ok : forall l o loc, let e := t_set (o_typist o) in
  pick (e_kb e) <> None -> panel_is (kind pick e) loc (o_panel o) ->
  Forall (fun v => fst (fst v) < R /\ snd (fst v) < 8) (flat_map ev_of l) ->
  exists loc', let o' := fold_left (moves (choice pick)) l o in
  let e' := t_set (o_typist o') in
  pick (e_kb e') <> None /\ panel_is (kind pick e') loc' (o_panel o') /\
  exists w, o_calls o' = o_calls o ++ w /\
    forall ts, panel_calls pick e loc (flat_map ev_of l ++ ts) = w ++ panel_calls pick e' loc' ts.
Proof.
  intros l. induction l as [|[[r c] m] l IH]; intros o loc e He Hp F.
  - exists loc. cbn [fold_left flat_map]. repeat split; try assumption. exists []. rewrite app_nil_r. split; [reflexivity|]. intros ts. reflexivity.
  - cbn [fold_left flat_map] in *. apply Forall_app in F as [F1 F2]. set (o1 := moves (choice pick) o (r, c, m)) in *.
    assert (X : exists loc1, let e1 := t_set (o_typist o1) in
      pick (e_kb e1) <> None /\ panel_is (kind pick e1) loc1 (o_panel o1) /\
      exists w, o_calls o1 = o_calls o ++ w /\
      forall ts, panel_calls pick e loc (ev_of (r, c, m) ++ ts) = w ++ panel_calls pick e1 loc1 ts).
    { assert (T : t_set (o_typist o1) = fold_left (after_event (choice pick)) (ev_of (r, c, m)) e).
      { unfold o1, moves. destruct (acts _ _ _ _). cbn [o_typist]. apply set_moved_all. }
      assert (P : o_panel o1 = fst (acts (choice pick) e (o_panel o) (r, c, m)) /\ o_calls o1 = o_calls o ++ snd (acts (choice pick) e (o_panel o) (r, c, m))).
      { unfold o1, moves. fold e. destruct (acts _ _ _ _). split; reflexivity. }
      destruct P as [P1 P2]. cbv zeta.
      assert (Y : forall b, m = move_of b -> ev_of (r, c, m) = [(r, c, b)]) by (intros [] ->; reflexivity).
      assert (M : m = Held \/ exists b, m = move_of b) by (destruct m; [right; exists true|right; exists false|left]; reflexivity).
      destruct M as [-> | [b Mb]].
      - cbn [ev_of fold_left] in T. exists loc. rewrite T, P1, P2. split; [exact He|]. split; [exact Hp|]. exists []. split; reflexivity.
      - rewrite (Y b Mb) in *. subst m. inv F1. cbn [fst snd fold_left] in *.
        destruct (pick (e_kb e)) as [k|] eqn:EK; [|congruence].
        assert (KK : kind pick e = k) by (unfold kind; rewrite EK; reflexivity). rewrite KK in Hp.
        destruct (event_ok e (o_panel o) loc r c b k EK Hp ltac:(tauto) ltac:(tauto)) as [V1 V2].
        rewrite T, P1, P2.
        destruct (e_kb (after_event (choice pick) e (r, c, b)) =? e_kb e)%N eqn:Q; destruct V2 as [V2 V3].
        + exists (loc_after (purpose_of k (e_shift e || e_lock e) (e_ctrl e) r c) b loc). split; [exact V1|]. split.
          * apply N.eqb_eq in Q. replace (kind pick (after_event (choice pick) e (r, c, b))) with k; [exact V2|].
            unfold kind. rewrite Q, EK. reflexivity.
          * eexists. split; [reflexivity|]. intros ts. cbn [app panel_calls]. cbv zeta. rewrite KK, Q, V3. reflexivity.
        + exists false. split; [exact V1|]. split; [exact V2|].
          eexists. split; [reflexivity|]. intros ts. cbn [app panel_calls]. cbv zeta. rewrite Q, V3. reflexivity. }
    destruct X as (loc1&X1&X2&w1&X4&X5).
    destruct (IH o1 loc1 X1 X2 F2) as (loc2&Y1&Y2&w2&Y4&Y5).
    exists loc2. cbv zeta. split; [exact Y1|]. split; [exact Y2|].
    exists (w1 ++ w2). split; [rewrite Y4, X4, app_assoc; reflexivity|]. intros ts. rewrite <- !app_assoc, X5, Y5. reflexivity.
Qed.

Lemma touches_worked : forall k p a b c, filter worked (touches k p a b c) = touches k p a b c.
Proof. intros k p a b c. destruct p, c; reflexivity. Qed.
Lemma set_up_worked : forall k a, filter worked (set_up k a) = set_up k a.
Proof. intros k a. unfold set_up. destruct k as [|[[[]|[]|]|[[]|[]|]|]]; reflexivity. Qed.
Lemma panel_worked : forall ts e loc, filter worked (panel_calls pick e loc ts) = panel_calls pick e loc ts.
Proof.
  intros ts. induction ts as [|[[r c] b] ts IH]; intros e loc; [reflexivity|]. cbn [panel_calls]. cbv zeta.
  destruct (_ =? _)%N; rewrite filter_app, IH; [rewrite touches_worked|rewrite set_up_worked]; reflexivity.
Qed.
Lemma begins_quiet : forall t n, filter worked (waits t n ++ leaves t) = [].
Proof.
  intros t n. rewrite filter_app. unfold waits. assert (L : filter worked (leaves t) = []).
  { unfold leaves. cbv zeta. repeat match goal with |- context [if ?b then _ else _] => destruct b end; reflexivity. }
  rewrite L. destruct (_ =? _)%N; reflexivity.
Qed.
Lemma scan_inside : forall R' C pre rd, Forall (fun v => fst (fst v) < R' /\ snd (fst v) < C) (scan_events R' C pre rd).
Proof.
  intros R' C pre rd. apply Forall_forall. intros [[r c] b] I. cbn [fst snd].
  apply (transitions_in R' C [rd] pre r c b). cbn [transitions]. rewrite app_nil_r. exact I.
Qed.

Lemma works_on_ok : forall rds pre o loc, let e := t_set (o_typist o) in
  pick (e_kb e) <> None -> panel_is (kind pick e) loc (o_panel o) ->
  filter worked (o_calls (works_on (choice pick) R 8 pre rds o)) =
  filter worked (o_calls o) ++ panel_calls pick e loc (transitions R 8 pre rds).
Proof.
  intros rds. induction rds as [|rd rds IH]; intros pre o loc e He Hp; [cbn [works_on transitions panel_calls]; rewrite app_nil_r; reflexivity|].
  cbn [works_on transitions].
  set (o1 := begins (choice pick) o).
  assert (E1 : t_set (o_typist o1) = e) by (unfold o1, begins; cbn [o_typist]; apply set_starts).
  destruct (moves_ok (scan_moves R 8 pre rd) o1 loc ltac:(rewrite E1; exact He) ltac:(rewrite E1; exact Hp)
    ltac:(rewrite events_of_moves; apply scan_inside)) as (loc'&Y1&Y2&w&Y4&Y5).
  rewrite (IH _ _ loc' Y1 Y2), Y4. rewrite events_of_moves, E1 in Y5. rewrite Y5. rewrite filter_app, <- app_assoc.
  assert (W : filter worked w = w).
  { specialize (Y5 []). cbn [panel_calls] in Y5. rewrite !app_nil_r in Y5. rewrite <- Y5. apply panel_worked. }
  rewrite W. unfold o1, begins. cbn [o_calls]. rewrite filter_app, begins_quiet, app_nil_r. reflexivity.
Qed.
End Choice.

(** ** C149 *)
(** Any choice of up to four shipped keymaps of one size for the settings 0 to 3
    of the switches. *)
Theorem C149_outputs : forall pick R rds s, alike pick R -> c_run (choice pick) rds = Ok s ->
  filter worked (events s) =
  set_up (kind pick (at_start (choice pick))) false ++ panel_calls pick (at_start (choice pick)) false (transitions R 8 [] rds).
Proof.
  intros pick R rds s HA ES. rewrite (C108_all_calls R 8 _ rds s (alike_sound _ _ HA) (alike_size _ _ HA) ES).
  unfold calls_of_run.
  assert (T : t_set (o_typist (opens (choice pick))) = at_start (choice pick)).
  { unfold opens. destruct (match choice pick 0%N with Some cs => _ | None => _ end) as [n l]. reflexivity. }
  pose proof HA as [[k0 E0] HA'].
  destruct (HA' _ _ E0) as (_&K6&_).
  assert (KK : kind pick (at_start (choice pick)) = k0) by (unfold kind; cbn [at_start e_kb]; rewrite E0; reflexivity).
  destruct (sets_up_ok k0 false 0 K6) as [S1 S2].
  assert (O : o_panel (opens (choice pick)) = fst (sets_up (setup_of k0) false (bare_panel 0)) /\
    o_calls (opens (choice pick)) = EvArchInit :: snd (sets_up (setup_of k0) false (bare_panel 0))).
  { unfold opens. replace (choice pick 0%N) with (Some (setup_of k0)) by (unfold choice; rewrite E0; reflexivity).
    destruct (sets_up _ _ _). split; reflexivity. }
  destruct O as [O1 O2].
  rewrite (works_on_ok pick R HA rds [] (opens (choice pick)) false).
  - rewrite T, O2, S2, set_up_worked, KK. reflexivity.
  - rewrite T. cbn [at_start e_kb]. congruence.
  - rewrite T, KK, O1. exact S1.
Qed.
Print Assumptions C149_outputs.

(** The ACE 1000 keymap assigns RESET and CLEAR SCREEN outputs, but no key of it
    works them, whatever is typed. *)
Theorem C149_ace_reset_refuted :
  In (mkDevice OUT3_OPEN_HI VOUT1 1) (n_devices (first_panel 5)) /\ n_does (first_panel 5) VOUT1 = V_PULSE_SHORT /\
  In (mkDevice OUT1_OPEN_LO VOUT2 0) (n_devices (first_panel 5)) /\ n_does (first_panel 5) VOUT2 = V_PULSE_LONG /\
  forall rds s y, c_run (sole 5) rds = Ok s -> ~ In (EvOut OUT3_OPEN_HI y) (events s) /\ ~ In (EvOut OUT1_OPEN_LO y) (events s).
Proof.
  do 4 (split; [vm_compute; auto 10|]). intros rds s y ES.
  pose proof (C149_outputs _ _ rds s (sole_alike 5 eq_refl) ES) as W.
  set (pick := fun i => if (i =? 0)%N then Some 5%N else None) in *. change (choice pick) with (sole 5) in W.
  assert (A : forall ts e loc, e_kb e = 0%N -> Forall (fun x => match x with EvOut p _ => p = LED3 | _ => True end) (panel_calls pick e loc ts)).
  { intros ts. induction ts as [|[[r c] b] ts IH]; intros e loc He; [constructor|]. cbn [panel_calls]. cbv zeta. change (choice pick) with (sole 5).
    assert (E' : e_kb (after_event (sole 5) e (r, c, b)) = 0%N) by (apply (sole_kb 5), event_known; rewrite He; discriminate).
    assert (K : kind pick e = 5%N) by (unfold kind; rewrite He; reflexivity).
    rewrite E', He, K. cbn [N.eqb]. apply Forall_app. split; [|apply IH; exact E'].
    assert (Q : purpose_of 5 (e_shift e || e_lock e) (e_ctrl e) r c = PStrobe \/ purpose_of 5 (e_shift e || e_lock e) (e_ctrl e) r c = PCaps \/
      purpose_of 5 (e_shift e || e_lock e) (e_ctrl e) r c = PNone).
    { unfold purpose_of. repeat match goal with |- context [match ?x with _ => _ end] => is_var x; destruct x; auto end. }
    destruct Q as [-> | [-> | ->]]; destruct b; cbn [touches]; repeat constructor. }
  assert (B : forall p, p <> LED3 -> ~ In (EvOut p y) (events s)).
  { intros p NP I. assert (I' : In (EvOut p y) (filter worked (events s))) by (apply filter_In; split; [exact I|reflexivity]).
    rewrite W in I'. apply in_app_or in I' as [I'|I'].
    - change (set_up _ false) with [EvArchInit; EvOut LED3 1] in I'. destruct I' as [I'|[I'|[]]]; [discriminate|]. injection I'; intros; subst. apply NP. reflexivity.
    - specialize (A (transitions (height 5) 8 [] rds) (at_start (sole 5)) false eq_refl). rewrite Forall_forall in A. specialize (A _ I'). cbn in A. exact (NP A). }
  split; apply B; vm_compute; discriminate.
Qed.
Print Assumptions C149_ace_reset_refuted.

(** On the Sol-20: LOCAL, BREAK, CTRL with RESET, LOCAL again, SHIFT LOCK and SHIFT. *)
Definition sol_tour : list (nat -> N) :=
  hold 12 [(9, 0)] ++ hold 12 [] ++ hold 12 [(6, 0)] ++ hold 12 [(0, 0)] ++ hold 12 [(0, 0); (1, 6)] ++ hold 12 [(9, 0)] ++
  hold 12 [(0, 1)] ++ hold 12 [] ++ hold 12 [(2, 1)] ++ hold 12 [].
Example C149_example :
  obs (fun s => filter worked (events s)) (c_run (sole 4) sol_tour) =
  Some [EvArchInit; EvOut LED1 1; EvStrobeNeg; EvOut LED2 1; EvOut OUT1 0; EvOut OUT2 0; EvPulseLong; EvOut OUT2 1;
        EvOut OUT3_OPEN_HI 0; EvPulseShort; EvOut OUT3_OPEN_HI 1; EvOut LED2 0; EvOut OUT1 1; EvOut LED3 1; EvOut LED3 0; EvOut LED3 0].
Proof. vm_compute. reflexivity. Qed.

(** The first four shipped keymaps on switch settings 0 to 3: CAPS LOCK and CTRL
    RESET on the classic keyboard, then switch 1 moved, CAPS LOCK and SHIFT CLEAR on
    the Apple II keyboard. *)
Definition first_four (i : N) : option N := if (i <? 4)%N then Some i else None.
Definition moving : list (nat -> N) :=
  hold 12 [(5, 2)] ++ hold 12 [] ++ hold 12 [(0, 6)] ++ hold 12 [(0, 6); (2, 0)] ++ hold 12 [] ++ hold 12 [(8, 1)] ++
  hold 12 [(8, 1); (0, 0)] ++ hold 12 [(8, 1)] ++ hold 12 [(8, 1); (0, 1)] ++ hold 12 [(8, 1); (0, 1); (6, 2)] ++ hold 12 [].
Example C149_switching_example : alike first_four 9 /\
  obs (fun s => filter worked (events s)) (c_run (choice first_four) moving) =
  Some [EvArchInit; EvOut LED3 1; EvOut OUT3_OPEN_HI 0; EvPulseShort; EvOut OUT3_OPEN_HI 1; EvArchInit; EvOut LED1 0;
        EvOut LED1 1; EvOut OUT1_OPEN_LO 1; EvPulseLong; EvOut OUT1_OPEN_LO 0; EvArchInit].
Proof.
  split; [|vm_compute; reflexivity]. split; [exists 0%N; reflexivity|]. intros i k E. unfold first_four in E.
  destruct (N.ltb_spec i 4); [|discriminate]. inv E. assert (C : (k = 0 \/ k = 1 \/ k = 2 \/ k = 3)%N) by lia.
  destruct C as [-> | [-> | [-> | ->]]]; repeat split; reflexivity.
Qed.
