(** Exactly what a firmware built from any keymaps sends (C104). *)
From Coq Require Import List NArith ZArith Arith Bool Lia.
From Coq Require Import ZifyBool ZifyNat ZifyN.
From Verif Require Import Base Lib Buffer BufferSpec BufferProofs Repeat Devices DevSpec DevProofs
     Modifiers Hook KeymapData Asdf KeySpec KeyRef Obs Frames PropDebounce Custom CustomSpec CustomRef PropCustom PropEvents PropFlow.
Import ListNotations.
Local Open Scope outcome_scope.

(** ** Specification *)

(** What a key does in a scan, from its own readings: it is accepted as pressed
    or as released, or it is read as pressed once more. *)
Inductive move := Press | Release | Held.
Definition key_moves (pre : list (nat -> N)) (rd : nat -> N) (r c : nat) : list (nat * nat * move) :=
  match accepted_after pre r c, accepted_after (pre ++ [rd]) r c with
  | false, true => [(r, c, Press)]
  | true, false => [(r, c, Release)]
  | true, true => if reading rd r c then [(r, c, Held)] else []
  | false, false => []
  end.
Definition scan_moves (R C : nat) (pre : list (nat -> N)) (rd : nat -> N) : list (nat * nat * move) :=
  flat_map (fun r => flat_map (key_moves pre rd r) (seq 0 C)) (seq 0 R).

(** Modes, the character that may repeat (0xA0: none), whether the REPEAT key
    is in force, whether autorepeat is on, the number of scans until the next
    repeat (0: never), the two queues and what has been sent. *)
Record typist := mkTy {
  t_set : setting; t_last : N; t_fast : bool; t_auto : bool; t_left : N;
  t_keys : list N; t_msgs : list N; t_out : list N }.

Definition first_delay (fast auto : bool) : N := if fast then 66 else if auto then 525 else 0.

(** The message a keymap has registered under [id]. *)
Definition message_of (cs : list setup_cmd) (id : nat) : list N :=
  fold_left (fun t c =>
    match c with
    | SHook i f => if i =? id then match f with HPrint m => m | _ => [] end else t
    | _ => t
    end) cs [].

Fixpoint enter (cap : nat) (l q : list N) : list N :=
  match l with
  | [] => q
  | x :: t => enter cap t (if length q <? cap then q ++ [x] else q)
  end.
Definition new_lines (m : list N) : list N := flat_map (fun c => if (c =? 10)%N then [13; 10]%N else [c]) m.

(** A doubled '%' in a message shows as one. *)
Fixpoint shown (m : list N) : list N :=
  match m with
  | c :: (d :: t) as u => if (c =? 37)%N && (d =? 37)%N then 37%N :: shown t else c :: shown u
  | _ => m
  end.

Section Spec.
Variable kbs : N -> option (list setup_cmd).

Definition prints (id : nat) (t : typist) : typist :=
  match kbs (e_kb (t_set t)) with
  | Some cs => mkTy (t_set t) (t_last t) (t_fast t) (t_auto t) (t_left t) (t_keys t)
                 (enter 128 (new_lines (shown (message_of cs id))) (t_msgs t)) (t_out t)
  | None => t
  end.

(** One character leaves per scan, messages first; then the message of each
    scan. *)
Definition sends_one (t : typist) : typist :=
  let out x := if (x <? 0xA0)%N then [x] else [] in
  let m := hd 0xA0%N (t_msgs t) in
  if (m =? 0xA0)%N
  then mkTy (t_set t) (t_last t) (t_fast t) (t_auto t) (t_left t) (tl (t_keys t)) (tl (t_msgs t))
         (t_out t ++ out (hd 0xA0%N (t_keys t)))
  else mkTy (t_set t) (t_last t) (t_fast t) (t_auto t) (t_left t) (t_keys t) (tl (t_msgs t)) (t_out t ++ out m).
Definition scan_starts (t : typist) : typist := prints 4 (sends_one t).

Definition types (x : N) (t : typist) : typist :=
  let k := enter 16 [x] (t_keys t) in
  if (x =? t_last t)%N then mkTy (t_set t) (t_last t) (t_fast t) (t_auto t) (t_left t) k (t_msgs t) (t_out t)
  else mkTy (t_set t) x (t_fast t) (t_auto t) (first_delay (t_fast t) (t_auto t)) k (t_msgs t) (t_out t).

Definition moves_to (e : setting) (t : typist) : typist :=
  mkTy e (t_last t) (t_fast t) (t_auto t) (t_left t) (t_keys t) (t_msgs t) (t_out t).
Definition beats (fast auto : bool) (left : N) (t : typist) : typist :=
  mkTy (t_set t) (t_last t) fast auto left (t_keys t) (t_msgs t) (t_out t).

Definition on_press (x : N) (t : typist) : typist :=
  if (x <=? 0xA0)%N then types x t
  else match decode x with
       | ARepeat => if (66 <? t_left t)%N || negb (t_fast t || t_auto t) then beats true (t_auto t) 66 t else t
       | AAutorepeat => beats (t_fast t) true (if t_fast t then t_left t else 525%N) t
       | AHereIs => prints 5 t
       | AFn n => if n <=? 10 then prints (4 + n) t else t
       | _ => moves_to (after_press kbs x (t_set t)) t
       end.
Definition on_release (x : N) (t : typist) : typist :=
  if (x <=? 0xA0)%N then
    if (x =? t_last t)%N then mkTy (t_set t) 0xA0 (t_fast t) (t_auto t) (t_left t) (t_keys t) (t_msgs t) (t_out t) else t
  else match decode x with
       | ARepeat => beats false (t_auto t) (first_delay false (t_auto t)) t
       | AAutorepeat => beats (t_fast t) false (if t_fast t then t_left t else 0%N) t
       | _ => moves_to (after_release kbs x (t_set t)) t
       end.
(** A held key counts down if its code is the one that may repeat. *)
Definition on_held (x : N) (t : typist) : typist :=
  if (x =? t_last t)%N && (0 <? t_left t)%N then
    if (t_left t =? 1)%N then types x (beats (t_fast t) (t_auto t) 66 t)
    else beats (t_fast t) (t_auto t) (t_left t - 1) t
  else t.

Definition moved (t : typist) (v : nat * nat * move) : typist :=
  let '(r, c, m) := v in
  let x := code_in kbs (t_set t) r c in
  match m with Press => on_press x t | Release => on_release x t | Held => on_held x t end.

Definition starts : typist := mkTy (at_start kbs) 0xA0 false true 525 [] [] [].
Fixpoint scans (R C : nat) (pre rds : list (nat -> N)) (t : typist) : typist :=
  match rds with
  | [] => t
  | rd :: l => scans R C (pre ++ [rd]) l (fold_left moved (scan_moves R C pre rd) (scan_starts t))
  end.
Definition output_of (R C : nat) (rds : list (nat -> N)) : list N := t_out (scans R C [] rds starts).
End Spec.

(** ** What the modes and outputs leave alone *)
Definition core (g : gkb) := (g_last g, g_rep g, g_qk g, g_qm g, gsent g).
Lemma core_act : forall f v g, core (gact f v g) = core g.
Proof.
  intros. unfold core. destruct (gsent_act f v g) as (->&->&->). unfold gact. destruct (spec_action _ _ _). reflexivity.
Qed.
Lemma core_shift : forall x g, core (gset_shift x g) = core g.
Proof. intros. unfold gset_shift. cbv zeta. etransitivity; [|apply core_act]. reflexivity. Qed.
Lemma core_caps : forall g, core (gtoggle_caps g) = core g.
Proof. intros. unfold gtoggle_caps. cbv zeta. etransitivity; [|apply core_act]. reflexivity. Qed.
Lemma core_note : forall e g, sends [e] = [] -> core (gnote e g) = core g.
Proof. intros e g H. unfold core. rewrite gsent_note, H, app_nil_r. reflexivity. Qed.
Lemma core_setup : forall cs g, core (gsetup cs g) = core g.
Proof.
  induction cs as [|c cs IH]; intros g; [reflexivity|].
  change (gsetup (c :: cs) g) with (gsetup cs (gsetup_step c g)). rewrite IH.
  destruct c; cbn [gsetup_step]; auto.
  - destruct ((mi <? 4) && (rows <=? 16) && (cols <=? 8)); auto.
  - destruct ((0 <? id) && (id <? 16)); auto.
  - apply core_caps.
  - apply core_note. reflexivity.
Qed.
Lemma core_switch : forall kbs i g, core (gswitch kbs i g) = core g.
Proof.
  intros. unfold gswitch. destruct (kbs i) as [cs|]; auto. rewrite core_setup. unfold gclear.
  rewrite core_note by reflexivity. reflexivity.
Qed.
Lemma core_select : forall kbs i g, core (gselect kbs i g) = core g.
Proof. intros. unfold gselect. destruct (i =? g_cur g)%N; auto. apply core_switch. Qed.

Lemma new_lines_expand : forall m, new_lines m = expand m.
Proof.
  intros. unfold new_lines, expand. apply flat_map_ext. intros c. destruct (N.eqb_spec c 10); congruence.
Qed.

(** ** Scans
    Any relation [Q] between a replay of the moves and the state that every
    step keeps holds after every scan. *)
Section Scans.
Variable kbs : N -> option (list setup_cmd).
Variable R C : nat.
Hypothesis sound : sound_firmware R kbs.
Hypothesis size : same_size R C kbs.
Variable X : Type.
Variable move_of : X -> nat * nat * move -> X.
Variable start_of : X -> X.
Variable Q : X -> gkb -> Prop.
Hypothesis Q_deb : forall t g d n, Q t g -> Q t (gp_dn d (gp_ct n g)).
Hypothesis Q_start : forall t g g1 g2, Tab kbs g -> Tab kbs g1 -> Q t g -> gsend g = Ok g1 -> ghook HOOK_EACH_SCAN g1 = Ok g2 -> Q (start_of t) g2.
Hypothesis Q_press : forall r c t g g' x, Tab kbs g -> low g -> r < R -> c < C -> gcode r c g = Ok x ->
  Q t g -> gpress kbs x g = Ok g' -> Q (move_of t (r, c, Press)) g'.
Hypothesis Q_release : forall r c t g x, Tab kbs g -> low g -> r < R -> c < C -> gcode r c g = Ok x ->
  Q t g -> Q (move_of t (r, c, Release)) (grelease kbs x g).
Hypothesis Q_held : forall r c t g g' x, Tab kbs g -> low g -> r < R -> c < C -> gcode r c g = Ok x ->
  Q t g -> gheld kbs x g = Ok g' -> Q (move_of t (r, c, Held)) g'.

Fixpoint replay (pre rds : list (nat -> N)) (t : X) : X :=
  match rds with
  | [] => t
  | rd :: l => replay (pre ++ [rd]) l (fold_left move_of (scan_moves R C pre rd) (start_of t))
  end.

Definition mv1 (g : gkb) (rd : nat -> N) (r c : nat) : list (nat * nat * move) :=
  match g_dn g r c, fst (db (dbp g r c) (reading rd r c)) with
  | false, true => [(r, c, Press)]
  | true, false => [(r, c, Release)]
  | true, true => if reading rd r c then [(r, c, Held)] else []
  | false, false => []
  end.

Lemma key_exact : forall rd r c t g, Tab kbs g -> low g -> r < R -> c < C -> Q t g ->
  exists g', gkey kbs rd r c g = Ok g' /\ Tab kbs g' /\ low g' /\ Q (fold_left move_of (mv1 g rd r c) t) g'.
Proof.
  intros rd r c t g T L Hr Hc HP.
  destruct (key_events kbs R C sound size rd r c g T L Hr Hc) as [g' (EK&T'&L'&_)].
  exists g'. split; [auto|]. split; [auto|]. split; [auto|]. unfold gkey in EK. cbv zeta in EK.
  unfold mv1, dbp, db. cbn [fst snd].
  destruct (Bool.eqb (reading rd r c) (g_dn g r c)) eqn:EQ; cbn [fst].
  - apply eqb_prop in EQ. rewrite <- EQ. destruct (reading rd r c); [|inv EK; auto].
    apply bind_Ok_inv in EK. destruct EK as [x [EX EK]]. cbn [fold_left]. exact (Q_held r c t g g' x T L Hr Hc EX HP EK).
  - destruct (g_ct g r c =? 1)%N; cbn [fst].
    + apply bind_Ok_inv in EK. destruct EK as [x [EX EK]].
      set (g1 := gp_dn (set2 (g_dn g) r c (reading rd r c)) (gp_ct (set2 (g_ct g) r c 10%N) g)) in *.
      assert (T1 : Tab kbs g1) by (apply (Tab_eq kbs g); auto).
      assert (P1 : Q t g1) by exact (Q_deb t g _ _ HP). assert (L1 : low g1) by exact L.
      destruct (reading rd r c), (g_dn g r c); try discriminate; cbn [fold_left].
      * exact (Q_press r c t g1 g' x T1 L1 Hr Hc EX P1 EK).
      * inv EK. exact (Q_release r c t g1 x T1 L1 Hr Hc EX P1).
    + inv EK. destruct (reading rd r c), (g_dn g r c); try discriminate; exact (Q_deb t g (g_dn g) _ HP).
Qed.

Lemma cols_exact : forall n t rd r c g, Tab kbs g -> low g -> r < R -> n + c = 8 -> Q t g ->
  exists g', gcols kbs n rd r c g = Ok g' /\ Tab kbs g' /\ low g' /\
    Q (fold_left move_of (flat_map (mv1 g rd r) (seq c (C - c))) t) g'.
Proof.
  pose proof (size_small kbs R C sound size) as [SR SC].
  induction n as [|n IH]; intros t rd r c g T L Hr HN HP; cbn [gcols].
  - exists g. replace (C - c) with 0 by lia. auto.
  - destruct (tab_size kbs R C size g T) as [W1 W2]. rewrite W2. destruct (Nat.ltb_spec c C).
    + destruct (key_exact rd r c t g T L Hr H HP) as [g1 (E1&T1&L1&X1)]. rewrite E1. cbn [bind].
      destruct (IH _ rd r (S c) g1 T1 L1 Hr ltac:(lia) X1) as [g' (E2&T2&L2&X2)]. exists g'.
      split; [auto|]. split; [auto|]. split; [auto|].
      replace (C - c) with (S (C - S c)) by lia. cbn [seq flat_map]. rewrite fold_left_app.
      assert (FR : flat_map (mv1 g rd r) (seq (S c) (C - S c)) = flat_map (mv1 g1 rd r) (seq (S c) (C - S c))).
      { rewrite !flat_map_concat_map. f_equal. apply map_ext_in. intros c' Hc'. apply in_seq in Hc'.
        destruct (gkey_frame kbs rd r c g g1 r c' E1 ltac:(lia)) as [A1 A2].
        unfold mv1, dbp. rewrite A1, A2. reflexivity. }
      rewrite FR. auto.
    + exists g. replace (C - c) with 0 by lia. auto.
Qed.

Lemma rows_exact : forall n t rd r g, Tab kbs g -> low g -> n + r = 16 -> Q t g ->
  exists g', grows kbs n rd r g = Ok g' /\ Tab kbs g' /\ low g' /\
    Q (fold_left move_of (flat_map (fun r => flat_map (mv1 g rd r) (seq 0 C)) (seq r (R - r))) t) g'.
Proof.
  pose proof (size_small kbs R C sound size) as [SR SC].
  induction n as [|n IH]; intros t rd r g T L HN HP; cbn [grows].
  - exists g. replace (R - r) with 0 by lia. auto.
  - destruct (tab_size kbs R C size g T) as [W1 W2]. rewrite W1. destruct (Nat.ltb_spec r R).
    + destruct (cols_exact 8 t rd r 0 g T L H eq_refl HP) as [g1 (E1&T1&L1&X1)]. rewrite E1. cbn [bind].
      destruct (IH _ rd (S r) g1 T1 L1 ltac:(lia) X1) as [g' (E2&T2&L2&X2)]. exists g'.
      split; [auto|]. split; [auto|]. split; [auto|].
      replace (R - r) with (S (R - S r)) by lia. cbn [seq flat_map]. rewrite fold_left_app.
      rewrite Nat.sub_0_r in X2.
      assert (FR : flat_map (fun r => flat_map (mv1 g rd r) (seq 0 C)) (seq (S r) (R - S r)) =
                   flat_map (fun r => flat_map (mv1 g1 rd r) (seq 0 C)) (seq (S r) (R - S r))).
      { rewrite !flat_map_concat_map. f_equal. apply map_ext_in. intros r' Hr'. apply in_seq in Hr'.
        rewrite !flat_map_concat_map. f_equal. apply map_ext_in. intros c' _.
        destruct (cols_frame kbs _ _ _ _ _ _ E1 r' c' ltac:(lia)) as [A1 A2].
        unfold mv1, dbp. rewrite A1, A2. reflexivity. }
      rewrite FR. auto.
    + exists g. replace (R - r) with 0 by lia. auto.
Qed.

Lemma ticks_exact : forall rds pre t g, Tab kbs g -> low g -> Q t g ->
  (forall r c, r < R -> c < C -> dbp g r c = dstate (key_readings pre r c)) ->
  exists g', gticks kbs rds g = Ok g' /\ Q (replay pre rds t) g'.
Proof.
  induction rds as [|rd rds IH]; intros pre t g T L HP HD; cbn [gticks replay].
  - exists g. auto.
  - destruct (send_ok R kbs sound g T) as [g1 (E1&T1&D1&D2)].
    destruct (scan_split R kbs sound rd g1 T1) as [g2 (H2&T2&D3&D4&E2)].
    assert (X2 : E g g2) by (eapply E_trans; [apply send_E; eauto|apply (E_hook _ _ _ _ (E_refl g1) H2)]).
    assert (L2 : low g2) by (unfold low in *; destruct X2 as [<- _]; auto).
    assert (P2 : Q (start_of t) g2).
    { exact (Q_start t g g1 g2 T T1 HP E1 H2). }
    destruct (rows_exact 16 _ rd 0 g2 T2 L2 eq_refl P2) as [g3 (E3&T3&L3&P3)]. rewrite Nat.sub_0_r in P3.
    assert (ET : gtick kbs rd g = Ok g3) by (unfold gtick; rewrite E1; cbn [bind]; rewrite E2; auto).
    rewrite ET. cbn [bind].
    assert (FR : scan_moves R C pre rd = flat_map (fun r => flat_map (mv1 g2 rd r) (seq 0 C)) (seq 0 R)).
    { unfold scan_moves. rewrite !flat_map_concat_map. f_equal. apply map_ext_in. intros r Hr. apply in_seq in Hr.
      rewrite !flat_map_concat_map. f_equal. apply map_ext_in. intros c Hc. apply in_seq in Hc.
      assert (DB : dbp g2 r c = dstate (key_readings pre r c))
        by (rewrite <- HD by lia; unfold dbp; rewrite D3, D4, D1, D2; reflexivity).
      unfold key_moves, mv1, accepted_after. rewrite key_readings_app.
      change (key_readings [rd] r c) with [reading rd r c]. rewrite dstate_snoc, <- DB. reflexivity. }
    apply IH; auto.
    + rewrite FR. auto.
    + intros r c Hr Hc.
      rewrite (tick_dbp R kbs sound C (at_least_size kbs R C sound size) rd g g3 r c T ET Hr Hc).
      rewrite key_readings_app. change (key_readings [rd] r c) with [reading rd r c]. rewrite dstate_snoc, HD; auto.
Qed.

End Scans.

Section Sim.
Variable kbs : N -> option (list setup_cmd).
Variable R C : nat.
Hypothesis sound : sound_firmware R kbs.
Hypothesis size : same_size R C kbs.

Definition base_of (auto : bool) : rstate := if auto then RAuto else ROff.
Definition rep_of (t : typist) : rep :=
  mkRep (if t_fast t then ROn else base_of (t_auto t)) (base_of (t_auto t)) (t_left t).
Definition sim (t : typist) (g : gkb) : Prop :=
  is_set (t_set t) g /\ core g = (t_last t, rep_of t, t_keys t, t_msgs t, t_out t).

Lemma nth_upd_same : forall (l : hooks) i x d, i < length l -> nth i (upd l i x) d = x.
Proof. induction l as [|y l IH]; intros [|i] x d H; cbn in *; try lia; auto. apply IH. lia. Qed.
Lemma nth_upd_other : forall (l : hooks) i j x d, j <> i -> nth i (upd l j x) d = nth i l d.
Proof. induction l as [|y l IH]; intros [|i] [|j] x d H; cbn; auto; try congruence. Qed.
Lemma th_message : forall cs id, (forall i f, In (SHook i f) cs -> sound_hook i f) -> 4 <= id < 16 ->
  (nth id (th cs) HUnset = HNull /\ message_of cs id = []) \/ nth id (th cs) HUnset = HPrint (message_of cs id) /\ exists l, shows (message_of cs id) l.
Proof.
  intros cs id HS HI. unfold th, message_of.
  assert (X : forall cs h t, (forall i f, In (SHook i f) cs -> sound_hook i f) -> length h = 16 ->
    ((nth id h HUnset = HNull /\ t = []) \/ nth id h HUnset = HPrint t /\ exists l, shows t l) ->
    let t' := fold_left (fun t c => match c with
      | SHook i f => if i =? id then match f with HPrint m => m | _ => [] end else t | _ => t end) cs t in
    (nth id (fold_left th_step cs h) HUnset = HNull /\ t' = []) \/ nth id (fold_left th_step cs h) HUnset = HPrint t' /\ exists l, shows t' l).
  { induction cs0 as [|c cs0 IH]; intros h t HS0 HL HH; cbn [fold_left]; [auto|].
    assert (HS1 : forall i f, In (SHook i f) cs0 -> sound_hook i f) by (intros; apply HS0; right; auto).
    destruct c; cbn [th_step]; try (apply IH; auto; fail).
    destruct ((0 <? id0) && (id0 <? 16)) eqn:EI.
    - apply IH; [auto|rewrite upd_length; auto|]. destruct (Nat.eqb_spec id0 id).
      + subst id0. rewrite nth_upd_same by lia. destruct (HS0 id f (or_introl eq_refl)) as (_&_&HF).
        destruct (HF ltac:(lia)) as [-> | (m&l&->&SM)]; [auto|right; eauto].
      + rewrite nth_upd_other by auto. auto.
    - replace (id0 =? id) with false by lia. apply IH; auto. }
  apply X; auto. left. split; auto.
  do 4 (destruct id as [|id]; [lia|]). do 12 (destruct id as [|id]; [reflexivity|]). lia.
Qed.

Lemma shown_shows : forall m l, shows m l -> shown m = l.
Proof.
  intros m l H. induction H as [|c m l NE H IH|m l H IH]; cbn [shown]; auto.
  - destruct m as [|d m]; [inv H; auto|]. rewrite IH. destruct (N.eqb_spec c 37); [contradiction|reflexivity].
  - cbn. rewrite IH. reflexivity.
Qed.

Lemma sim_hook : forall id t g g', Tab kbs g -> sim t g -> 4 <= id < 16 -> ghook id g = Ok g' -> sim (prints kbs id t) g'.
Proof.
  intros id t g g' [cs (A&_&B)] [S1 S2] HI H. pose proof S1 as [S0 _].
  unfold prints. rewrite <- S0, A. destruct (proj2 sound _ _ A) as [_ [_ HS]].
  unfold ghook in H. rewrite B in H. unfold core in S2.
  destruct (th_message cs id HS HI) as [[EN EM]|[EN [tx EF]]]; rewrite EN in H;
    [|rewrite (proj1 (shows_format _ _) EF) in H]; inv H.
  - rewrite EM. split; [exact S1|]. exact S2.
  - split; [exact S1|]. unfold core. cbn [gprint gp_qm g_last g_rep g_qk g_qm t_last t_keys t_msgs t_out].
    match goal with |- (_, _, _, _, gsent ?h) = _ => change (gsent h) with (gsent g) end. rewrite new_lines_expand.
    rewrite (shown_shows _ _ EF). change (enter 128 (expand tx) (t_msgs t)) with (qput_all 128 (expand tx) (t_msgs t)).
    unfold rep_of in *. cbn [t_fast t_auto t_left]. congruence.
Qed.

Lemma sim_send : forall t g g', sim t g -> gsend g = Ok g' -> sim (sends_one t) g'.
Proof.
  intros t g g' [S1 S2] H. unfold core in S2. unfold gsend in H. cbv zeta in H. unfold sends_one. cbv zeta.
  assert (Q1 : g_qk g = t_keys t) by congruence. assert (Q2 : g_qm g = t_msgs t) by congruence.
  rewrite Q1, Q2 in H.
  assert (EM : forall x h g', gemit x h = Ok g' ->
    g_mod g' = g_mod h /\ g_cur g' = g_cur h /\ g_last g' = g_last h /\ g_rep g' = g_rep h /\ g_qk g' = g_qk h /\ g_qm g' = g_qm h /\
    gsent g' = gsent h ++ (if (x <? 0xA0)%N then [x] else [])).
  { intros x h h' HE. unfold gemit in HE. destruct (x <? 0xA0)%N; [|inv HE; rewrite app_nil_r; auto 10].
    destruct (nth HOOK_OUTPUT (g_hook h) HUnset); inv HE. rewrite gsent_note. cbn [sends flat_map app].
    repeat (split; [reflexivity|]). reflexivity. }
  destruct S1 as [U1 U2].
  destruct (hd 0xA0%N (t_msgs t) =? 0xA0)%N; apply EM in H; destruct H as (M1&M2&M3&M4&M5&M6&M7);
    (split; [split; [rewrite M2; exact U1|rewrite M1; exact U2]|]); unfold core; rewrite M3, M4, M5, M6, M7;
    unfold rep_of in *; cbn [t_last t_fast t_auto t_left t_keys t_msgs t_out].
  - cbn [gp_qk gp_qm g_last g_rep g_qk g_qm].
    match goal with |- context [gsent ?h ++ _] => change (gsent h) with (gsent g) end. congruence.
  - rewrite gsent_note. cbn [sends flat_map]. rewrite app_nil_r. cbn [gnote gp_log gp_qk gp_qm g_last g_rep g_qk g_qm].
    match goal with |- context [gsent ?h ++ _] => change (gsent h) with (gsent g) end. congruence.
Qed.

Lemma rep_reset : forall t, repeat_reset_count (rep_of t) = mkRep (if t_fast t then ROn else base_of (t_auto t)) (base_of (t_auto t))
  (first_delay (t_fast t) (t_auto t)).
Proof. intros t. unfold repeat_reset_count, rep_of, first_delay, base_of. destruct (t_fast t), (t_auto t); reflexivity. Qed.

Lemma core_is : forall t g, core g = (t_last t, rep_of t, t_keys t, t_msgs t, t_out t) ->
  g_last g = t_last t /\ g_rep g = rep_of t /\ g_qk g = t_keys t /\ g_qm g = t_msgs t /\ gsent g = t_out t.
Proof. intros t g H. unfold core in H. repeat split; congruence. Qed.

Lemma sim_types : forall x t g, (x <= 0xA0)%N -> sim t g ->
  exists g', gpress kbs x g = Ok g' /\ sim (types x t) g'.
Proof.
  intros x t g HX [S1 S2]. apply core_is in S2. destruct S2 as (Q1&Q2&Q3&Q4&Q5).
  unfold gpress. replace (0xA0 <? x)%N with false by lia. eexists. split; [reflexivity|].
  unfold types. rewrite Q1, (N.eqb_sym (t_last t)). cbn [enter].
  destruct (x =? t_last t)%N; (split; [exact S1|]); unfold core; cbn [gp_rep gp_last gp_qk g_last g_rep g_qk g_qm t_last t_keys t_msgs t_out];
    unfold qput; (match goal with |- (_, _, _, _, gsent ?h) = _ => change (gsent h) with (gsent g) end).
  - rewrite Q1, Q2, Q3, Q4, Q5. reflexivity.
  - rewrite Q2, Q3, Q4, Q5, rep_reset. reflexivity.
Qed.

Lemma high_code : forall x, (0xA0 < x)%N -> decode x <> ANothing.
Proof.
  intros x H E. unfold decode in E. 
  repeat match type of E with (if ?b then _ else _) = _ => destruct b eqn:? ; try discriminate; try lia end.
Qed.

Lemma sim_press : forall r c t g g' x, Tab kbs g -> low g -> r < R -> c < C -> gcode r c g = Ok x ->
  sim t g -> gpress kbs x g = Ok g' -> sim (moved kbs t (r, c, Press)) g'.
Proof.
  intros r c t g g' x T L Hr Hc EX SI H. pose proof SI as [S1 S2].
  pose proof (set_code kbs R C sound size _ g r c T S1 Hr Hc) as EX2. rewrite EX in EX2. inv EX2.
  cbn [moved]. set (x := code_in kbs (t_set t) r c) in *. unfold on_press. destruct (N.leb_spec x 0xA0).
  - destruct (sim_types x t g H0 SI) as [g1 [E1 X1]]. rewrite H in E1. inv E1. auto.
  - pose proof (press_set kbs x _ g g' S1 H) as S1'. pose proof (high_code x H0) as HN.
    unfold gpress in H. replace (0xA0 <? x)%N with true in H by lia. unfold gaction_on in H.
    unfold after_press in S1'. unfold after_press.
    apply core_is in S2. destruct S2 as (Q1&Q2&Q3&Q4&Q5).
    assert (KE : forall g', core g' = core g -> is_set (t_set t) g' -> sim t g').
    { intros h K U. split; [auto|]. rewrite K. unfold core. congruence. }
    assert (KM : forall e g', core g' = core g -> is_set e g' -> sim (moves_to e t) g').
    { intros e h K U. split; [exact U|]. rewrite K. unfold core, moves_to, rep_of in *. cbn [t_last t_fast t_auto t_left t_keys t_msgs t_out]. congruence. }
    destruct (decode x) as [| | | | | | | |n| | |n|n|n|] eqn:D; try congruence;
      try (inv H; apply KM; auto using core_shift, core_caps, core_select, core_act, core_note; fail).
    + (* REPEAT *) inv H. rewrite Q2. unfold repeat_activate. cbn [rep_of r_timer r_state rval].
      replace (rstate_eqb ROff (if t_fast t then ROn else base_of (t_auto t))) with (negb (t_fast t || t_auto t))
        by (destruct (t_fast t), (t_auto t); reflexivity).
      destruct ((66 <? t_left t)%N || negb (t_fast t || t_auto t)).
      * split; [exact S1|]. unfold core. cbn [gp_rep g_last g_rep g_qk g_qm beats t_last t_keys t_msgs t_out].
        match goal with |- (_, _, _, _, gsent ?h) = _ => change (gsent h) with (gsent g) end. rewrite Q1, Q3, Q4, Q5. reflexivity.
      * split; [exact S1|]. unfold core. cbn [gp_rep g_last g_rep g_qk g_qm].
        match goal with |- (_, _, _, _, gsent ?h) = _ => change (gsent h) with (gsent g) end. rewrite Q1, Q3, Q4, Q5. reflexivity.
    + eapply sim_hook; eauto. lia.
    + (* autorepeat *) inv H. split; [exact S1|]. unfold core. cbn [gp_rep g_last g_rep g_qk g_qm beats t_last t_keys t_msgs t_out].
      match goal with |- (_, _, _, _, gsent ?h) = _ => change (gsent h) with (gsent g) end. rewrite Q1, Q2, Q3, Q4, Q5.
      unfold repeat_auto_on, rep_of, base_of. cbn [r_state r_base r_timer t_fast t_auto t_left]. destruct (t_fast t), (t_auto t); reflexivity.
    + (* functions *) destruct (Nat.leb_spec n 10).
      * eapply sim_hook; eauto. lia.
      * inv H. apply KE; auto.
Qed.

Lemma sim_release : forall r c t g x, Tab kbs g -> low g -> r < R -> c < C -> gcode r c g = Ok x ->
  sim t g -> sim (moved kbs t (r, c, Release)) (grelease kbs x g).
Proof.
  intros r c t g x T L Hr Hc EX SI. pose proof SI as [S1 S2].
  pose proof (set_code kbs R C sound size _ g r c T S1 Hr Hc) as EX2. rewrite EX in EX2. inv EX2.
  cbn [moved]. set (x := code_in kbs (t_set t) r c) in *. unfold on_release.
  pose proof (release_set kbs x _ g S1) as S1'. unfold grelease in *.
  apply core_is in S2. destruct S2 as (Q1&Q2&Q3&Q4&Q5). destruct (N.leb_spec x 0xA0).
  - replace (0xA0 <? x)%N with false in * by lia. rewrite Q1, (N.eqb_sym (t_last t)).
    destruct (x =? t_last t)%N; [|exact SI]. split; [exact S1|]. unfold core.
    cbn [gp_last g_last g_rep g_qk g_qm t_last t_keys t_msgs t_out].
    match goal with |- (_, _, _, _, gsent ?h) = _ => change (gsent h) with (gsent g) end. rewrite Q2, Q3, Q4, Q5. reflexivity.
  - replace (0xA0 <? x)%N with true in * by lia. unfold gaction_off, after_release in *.
    assert (KM : forall e g', core g' = core g -> is_set e g' -> sim (moves_to e t) g').
    { intros e h K U. split; [exact U|]. rewrite K. unfold core, moves_to, rep_of in *. cbn [t_last t_fast t_auto t_left t_keys t_msgs t_out]. congruence. }
    destruct (decode x) as [| | | | | | | |n| | |n|n|n|] eqn:D;
      try (apply KM; auto using core_shift, core_caps, core_select, core_act, core_note; fail).
    + split; [exact S1|]. unfold core. cbn [gp_rep g_last g_rep g_qk g_qm beats t_last t_keys t_msgs t_out].
      match goal with |- (_, _, _, _, gsent ?h) = _ => change (gsent h) with (gsent g) end. rewrite Q1, Q2, Q3, Q4, Q5.
      unfold repeat_deactivate, rep_of, first_delay, base_of. cbn [r_base t_fast t_auto t_left]. destruct (t_auto t); reflexivity.
    + split; [exact S1|]. unfold core. cbn [gp_rep g_last g_rep g_qk g_qm beats t_last t_keys t_msgs t_out].
      match goal with |- (_, _, _, _, gsent ?h) = _ => change (gsent h) with (gsent g) end. rewrite Q1, Q2, Q3, Q4, Q5.
      unfold repeat_auto_off, rep_of, base_of. cbn [r_state r_base r_timer t_fast t_auto t_left]. destruct (t_fast t), (t_auto t); reflexivity.
Qed.

Lemma sim_held : forall r c t g g' x, Tab kbs g -> low g -> r < R -> c < C -> gcode r c g = Ok x ->
  sim t g -> gheld kbs x g = Ok g' -> sim (moved kbs t (r, c, Held)) g'.
Proof.
  intros r c t g g' x T L Hr Hc EX SI H. pose proof SI as [S1 S2].
  pose proof (set_code kbs R C sound size _ g r c T S1 Hr Hc) as EX2. rewrite EX in EX2. inv EX2.
  cbn [moved]. set (x := code_in kbs (t_set t) r c) in *. unfold on_held. unfold gheld in H.
  apply core_is in S2. destruct S2 as (Q1&Q2&Q3&Q4&Q5). rewrite Q1 in H. unfold low in L. rewrite Q1 in L.
  destruct (N.eqb_spec x (t_last t)); cbn [andb]; [|inv H; exact SI].
  rewrite Q2 in H. unfold repeat_tick in H. cbn [rep_of r_timer r_state r_base] in H.
  assert (BE : forall n, sim (beats (t_fast t) (t_auto t) n t)
    (gp_rep (mkRep (if t_fast t then ROn else base_of (t_auto t)) (base_of (t_auto t)) n) g)).
  { intros n. split; [exact S1|]. unfold core. cbn [gp_rep g_last g_rep g_qk g_qm beats t_last t_keys t_msgs t_out].
    match goal with |- (_, _, _, _, gsent ?h) = _ => change (gsent h) with (gsent g) end. rewrite Q1, Q3, Q4, Q5. reflexivity. }
  destruct (N.eqb_spec (t_left t) 0) as [Z|Z].
  - replace (0 <? t_left t)%N with false by lia. inv H. split; [exact S1|]. unfold core. cbn [gp_rep g_last g_rep g_qk g_qm].
    match goal with |- (_, _, _, _, gsent ?h) = _ => change (gsent h) with (gsent g) end. rewrite Q1, Q3, Q4, Q5. reflexivity.
  - replace (0 <? t_left t)%N with true by lia.
    destruct (N.eqb_spec (t_left t - 1) 0).
    + replace (t_left t =? 1)%N with true by lia.
      destruct (sim_types x _ _ ltac:(lia) (BE 66%N)) as [g1 [E1 X1]]. cbn [rval] in H. rewrite H in E1. inv E1. exact X1.
    + replace (t_left t =? 1)%N with false by lia. inv H. apply BE.
Qed.

Lemma sim_boot : sim (starts kbs) (gboot kbs).
Proof.
  split; [apply (start_set kbs R sound)|]. unfold gboot. rewrite core_switch. reflexivity.
Qed.

Lemma sim_deb : forall t g d n, sim t g -> sim t (gp_dn d (gp_ct n g)).
Proof. intros t g d n H. exact H. Qed.
Lemma sim_start : forall t g g1 g2, Tab kbs g -> Tab kbs g1 -> sim t g -> gsend g = Ok g1 -> ghook HOOK_EACH_SCAN g1 = Ok g2 ->
  sim (scan_starts kbs t) g2.
Proof. intros t g g1 g2 T T1 S E1 E2. apply (sim_hook 4 _ g1); auto; [|lia]. eapply sim_send; eauto. Qed.
Lemma scans_replay : forall rds pre t, scans kbs R C pre rds t = replay R C _ (moved kbs) (scan_starts kbs) pre rds t.
Proof. induction rds as [|rd rds IH]; intros; [reflexivity|]. cbn [scans replay]. apply IH. Qed.
Lemma exact_run : forall rds, exists g, grun kbs rds = Ok g /\ sim (scans kbs R C [] rds (starts kbs)) g.
Proof.
  intros rds.
  destruct (ticks_exact kbs R C sound size _ (moved kbs) (scan_starts kbs) sim sim_deb sim_start sim_press sim_release sim_held
              rds [] (starts kbs) (gboot kbs) (tab_boot R kbs sound) (boot_low kbs) sim_boot) as [g' (E3&Y)].
  { intros r c _ _. apply boot_dbp. }
  exists g'. rewrite scans_replay. auto.
Qed.
End Sim.

(** ** C104 *)
Theorem C104_exact : forall R C kbs rds s, sound_firmware R kbs -> same_size R C kbs ->
  c_run kbs rds = Ok s -> sent s = output_of kbs R C rds.
Proof.
  intros R C kbs rds s HS HZ ES. destruct (run_ok_g R kbs HS rds) as (g&s'&E1&T1&E2&RL). rewrite ES in E2. inv E2.
  destruct (exact_run kbs R C HS HZ rds) as [g' (E3&X)].
  rewrite E1 in E3. inv E3. destruct X as [_ X]. apply core_is in X. destruct X as (_&_&_&_&X).
  destruct RL as [RT _]. unfold sent, events. rewrite (rt_log _ _ RT). exact X.
Qed.
Print Assumptions C104_exact.

(** A keyboard with a message under HERE IS, and a second one. *)
Definition desk (i : N) : option (list setup_cmd) :=
  if (i =? 0)%N then
    Some [SAddMap [97; 98; 0xA1; 0xA5; 0xA6; 0xA7; 0xA8; 0xAC]%N 0 1 8;
          SAddMap [65; 66; 0xA1; 0xA5; 0xA6; 0xA7; 0xA8; 0xAC]%N 1 1 8;
          SAddMap [65; 66; 0xA1; 0xA5; 0xA6; 0xA7; 0xA8; 0xAC]%N 2 1 8;
          SAddMap [1; 2; 0xA1; 0xA5; 0xA6; 0xA7; 0xA8; 0xAC]%N 3 1 8;
          SHook 5 (HPrint [72; 10]%N)]
  else if (i =? 1)%N then
    Some [SAddMap [48; 49; 0xA1; 0xA5; 0xA6; 0xA7; 0xA8; 0xAC]%N 0 1 8;
          SAddMap [33; 34; 0xA1; 0xA5; 0xA6; 0xA7; 0xA8; 0xAC]%N 1 1 8;
          SAddMap [48; 49; 0xA1; 0xA5; 0xA6; 0xA7; 0xA8; 0xAC]%N 2 1 8;
          SAddMap [48; 49; 0xA1; 0xA5; 0xA6; 0xA7; 0xA8; 0xAC]%N 3 1 8; SCapslock]
  else None.
Lemma desk_sound : sound_firmware 1 desk /\ same_size 1 8 desk /\ scan_hook_free desk.
Proof.
  split; [split|split].
  - eexists. reflexivity.
  - intros i cs E1. unfold desk in E1. destruct (N.eqb_spec i 0); [|destruct (N.eqb_spec i 1)]; inv E1;
      (split; [lia|]; apply (sound_b_ok 1 1 8); vm_compute; reflexivity).
  - intros i cs mi E1 Hm. unfold desk in E1. destruct (i =? 0)%N; [|destruct (i =? 1)%N]; inv E1;
      (do 4 (destruct mi as [|mi]; [eexists; vm_compute; reflexivity|]); lia).
  - intros i cs f E1 HI. unfold desk in E1. destruct (i =? 0)%N; [|destruct (i =? 1)%N]; inv E1; cbn in HI; intuition discriminate.
Qed.

(** "a" with REPEAT held for 80 scans, "B" with SHIFT, HERE IS while "a" is
    still down, then "1" on the other keyboard. *)
Definition busy : list (nat -> N) :=
  hold 12 [(0, 4)] ++ hold 80 [(0, 4); (0, 0)] ++ hold 12 [(0, 0); (0, 2)] ++ hold 12 [(0, 0); (0, 2); (0, 1)] ++
  hold 11 [(0, 0); (0, 5)] ++ hold 12 [(0, 6)] ++ hold 12 [(0, 6); (0, 1)] ++ hold 20 [].
Example C104_example :
  output_of desk 1 8 busy = [97; 97; 66; 72; 13; 10; 49]%N /\
  obs sent (c_run desk busy) = Some [97; 97; 66; 72; 13; 10; 49]%N.
Proof. split; vm_compute; reflexivity. Qed.
