(** C65-C68: the recording architecture of the unit tests. *)
From Coq Require Import List NArith Arith Bool Lia.
From Verif Require Import Base Lib Devices ArchTest.
Import ListNotations.
Local Open Scope outcome_scope.

(** ** Specification, on the calls made, newest first *)

(** The last value driven on device [d] since the hardware was initialised. *)
Fixpoint last_driven (here : nat -> bool) (l : list tcall) : N :=
  match l with
  | [] | TCall EvArchInit :: _ => 0%N
  | TCall (EvOut e v) :: t => if here e then v else last_driven here t
  | _ :: t => last_driven here t
  end.

(** What a device goes through: levels and waits. *)
Inductive happening := Level (hi : bool) | Wait.
Fixpoint happenings (here : nat -> bool) (l : list tcall) : list happening :=
  match l with
  | [] | TCall EvArchInit :: _ => []
  | TCall (EvOut e v) :: t =>
      if here e then Level (negb (v =? 0)%N) :: happenings here t else happenings here t
  | TCall EvPulseShort :: t | TCall EvPulseLong :: t | TCall (EvDelayMs _) :: t => Wait :: happenings here t
  | _ :: t => happenings here t
  end.

(** Every wait is in the middle of a pulse: the level changed just before it
    (and that change is not the end of another pulse) and changes back just
    after it, if anything came after it. *)
Definition all_waits_in_pulses (h : list happening) : Prop :=
  forall a b, h = a ++ Wait :: b ->
  exists hi b', b = Level hi :: Level (negb hi) :: b' /\
                (a = [] \/ exists a', a = a' ++ [Level (negb hi)]).

(** The newest three happenings are a pulse to level [hi] and back. *)
Definition just_pulsed (hi : bool) (h : list happening) : Prop :=
  exists t, h = Level (negb hi) :: Wait :: Level hi :: t.

(** The six open-collector devices. *)
Definition is_open (e : nat) : bool :=
  existsb (Nat.eqb e) [OUT1_OPEN_HI; OUT1_OPEN_LO; OUT2_OPEN_HI; OUT2_OPEN_LO; OUT3_OPEN_HI; OUT3_OPEN_LO].

(** Devices are numbers of the enumeration. *)
Definition tcall_ok (c : tcall) : Prop := match c with TCall (EvOut d _) => d < 13 | _ => True end.

(** Codes: the last one sent, and whether it was sent after the last query. *)
Fixpoint last_code (old : N) (l : list tcall) : N :=
  match l with [] => old | TCall (EvSend c) :: _ => c | _ :: t => last_code old t end.
Fixpoint unread (l : list tcall) : bool :=
  match l with
  | [] | TCall EvArchInit :: _ | TGetCode :: _ => false
  | TCall (EvSend _) :: _ => true
  | _ :: t => unread t
  end.

(** ** Proof *)

Definition recorded_as (e : nat) : nat := if is_open e then OUT1_OPEN_HI else e.

Lemma recorded_as_lt : forall e, e < 13 -> recorded_as e < 13.
Proof. intros e H. do 13 (destruct e as [|e]; [vm_compute; lia|]). lia. Qed.

Lemma handler_slot : forall e v s, e < 13 -> t_handler e v s = t_set_output (recorded_as e) v s.
Proof. intros e v s H. do 13 (destruct e as [|e]; [reflexivity|]). lia. Qed.

Definition st_inv (st : nat) (h : list happening) : Prop :=
  (st = 0 /\ h = []) \/
  (exists (hi : bool) b, st = (if hi then 2 else 1) /\ h = Level hi :: b /\ all_waits_in_pulses h /\
                (b = [] \/ exists b', b = Level hi :: b')) \/
  (exists (hi : bool) b, st = (if hi then 4 else 3) /\ h = Level hi :: b /\ all_waits_in_pulses h /\
                exists b', b = Level (negb hi) :: b') \/
  (exists (hi : bool) b, st = (if hi then 6 else 5) /\ h = Wait :: Level hi :: b /\ all_waits_in_pulses h /\
                exists b', b = Level (negb hi) :: b') \/
  (exists (hi : bool) b, st = (if hi then 7 else 8) /\ h = Level (negb hi) :: Wait :: Level hi :: b /\
                all_waits_in_pulses h) \/
  (10 <= st /\ ~ all_waits_in_pulses h).

Lemma waits_nil : all_waits_in_pulses [].
Proof. intros a b E. destruct a; discriminate E. Qed.

Lemma waits_level_other : forall hi h, (forall b, h <> Wait :: b) -> all_waits_in_pulses h ->
  all_waits_in_pulses (Level hi :: h).
Proof.
  intros hi h HN H a b E. destruct a as [|x a]; [discriminate E|]. cbn [app] in E. injection E as _ E.
  destruct (H _ _ E) as (k & b' & E1 & E3). exists k, b'. split; [exact E1|].
  right. destruct E3 as [-> | (a' & ->)].
  - exfalso. apply (HN b). exact E.
  - exists (x :: a'). reflexivity.
Qed.

Lemma waits_tail : forall x h, all_waits_in_pulses (x :: h) -> all_waits_in_pulses h.
Proof.
  intros x h H a b E. subst h. destruct (H (x :: a) b eq_refl) as (hi & b' & E1 & E3).
  exists hi, b'. split; [exact E1|]. destruct E3 as [E3 | (a' & E3)]; [discriminate E3|].
  destruct a as [|y a]; [left; reflexivity|right].
  destruct a' as [|z a']; [destruct a; discriminate E3|]. injection E3 as _ E3. exists a'. exact E3.
Qed.

Lemma waits_wait : forall hi b, (exists b', b = Level (negb hi) :: b') -> all_waits_in_pulses (Level hi :: b) ->
  all_waits_in_pulses (Wait :: Level hi :: b).
Proof.
  intros hi b (t & ->) H a c E. destruct a as [|x a].
  - cbn [app] in E. injection E as E. subst c. exists hi, t. auto.
  - cbn [app] in E. injection E as Ex E. subst x. destruct (H _ _ E) as (k & b' & E1 & E3).
    exists k, b'. split; [exact E1|]. right. destruct E3 as [-> | (a' & ->)].
    + discriminate E.
    + exists (Wait :: a'). reflexivity.
Qed.

Lemma waits_back : forall hi b, all_waits_in_pulses (Wait :: Level hi :: b) ->
  all_waits_in_pulses (Level (negb hi) :: Wait :: Level hi :: b).
Proof.
  intros hi b H a c E. destruct a as [|x a]; [discriminate E|]. cbn [app] in E. injection E as Ex E.
  destruct (H _ _ E) as (k & b' & E1 & E3). exists k, b'. split; [exact E1|]. right.
  destruct E3 as [-> | (a' & ->)].
  - cbn [app] in E. injection E as E. exists []. subst c. injection E1 as E1 _. subst x k. reflexivity.
  - exists (x :: a'). reflexivity.
Qed.

Lemma waits_not_back : forall hi b, ~ all_waits_in_pulses (Level hi :: Wait :: Level hi :: b).
Proof.
  intros hi b H. destruct (H [Level hi] (Level hi :: b) eq_refl) as (k & b' & E1 & [E3 | (a' & E3)]); [discriminate E3|].
  injection E1 as E1 _. subst k. destruct a' as [|z a']; [|destruct a'; discriminate E3].
  injection E3 as E3. destruct hi; discriminate E3.
Qed.

Lemma waits_not_after_wait : forall b, ~ all_waits_in_pulses (Wait :: Wait :: b).
Proof. intros b H. destruct (H [] _ eq_refl) as (k & b' & E1 & _). discriminate E1. Qed.

Lemma waits_not_stable : forall hi b, (forall b', b <> Level (negb hi) :: b') -> ~ all_waits_in_pulses (Wait :: Level hi :: b).
Proof. intros hi b N H. destruct (H [] _ eq_refl) as (k & b' & E1 & _). injection E1 as -> ->. apply (N b'). reflexivity. Qed.

Definition event_of (x : happening) : pevent :=
  match x with Level true => PSetHigh | Level false => PSetLow | Wait => PDelay end.

Lemma st_step : forall st h x, st_inv st h ->
  exists st', pulse_detect st (event_of x) = Ok st' /\ st_inv st' (x :: h).
Proof.
  intros st h x [(-> & ->) | [(hi & b & -> & -> & W & L) | [(hi & b & -> & -> & W & L) |
    [(hi & b & -> & -> & W & L) | [(hi & b & -> & -> & W) | (G & W)]]]]].
  - destruct x as [hi|].
    + exists (if hi then 2 else 1). split; [destruct hi; reflexivity|]. right; left. exists hi, [].
      split; [reflexivity|]. split; [reflexivity|]. split; [apply waits_level_other; [discriminate|apply waits_nil]|left; reflexivity].
    + exists 15. split; [reflexivity|]. do 5 right. split; [lia|]. intros H.
      destruct (H [] [] eq_refl) as (k & b' & E & _). discriminate E.
  - destruct x as [hj|].
    + destruct (Bool.eqb hj hi) eqn:E.
      * apply eqb_prop in E. subst hj. exists (if hi then 2 else 1). split; [destruct hi; reflexivity|].
        right; left. exists hi, (Level hi :: b). split; [reflexivity|]. split; [reflexivity|].
        split; [apply waits_level_other; [discriminate|exact W]|]. right. eexists. reflexivity.
      * assert (hj = negb hi) by (destruct hi, hj; try discriminate E; reflexivity). subst hj. clear E.
        exists (if negb hi then 4 else 3). split; [destruct hi; reflexivity|]. do 2 right; left.
        exists (negb hi), (Level hi :: b). split; [reflexivity|]. split; [reflexivity|].
        split; [apply waits_level_other; [discriminate|exact W]|]. exists b. rewrite negb_involutive. reflexivity.
    + exists 12. split; [destruct hi; reflexivity|]. do 5 right. split; [lia|]. apply waits_not_stable.
      intros b' ->. destruct L as [L | (t & L)]; [discriminate L|]. injection L as L _. destruct hi; discriminate L.
  - destruct x as [hj|].
    + destruct (Bool.eqb hj hi) eqn:E.
      * apply eqb_prop in E. subst hj. exists (if hi then 2 else 1). split; [destruct hi; reflexivity|].
        right; left. exists hi, (Level hi :: b). split; [reflexivity|]. split; [reflexivity|].
        split; [apply waits_level_other; [discriminate|exact W]|]. right. eexists. reflexivity.
      * assert (hj = negb hi) by (destruct hi, hj; try discriminate E; reflexivity). subst hj. clear E.
        exists (if negb hi then 4 else 3). split; [destruct hi; reflexivity|]. do 2 right; left.
        exists (negb hi), (Level hi :: b). split; [reflexivity|]. split; [reflexivity|].
        split; [apply waits_level_other; [discriminate|exact W]|]. exists b. rewrite negb_involutive. reflexivity.
    + exists (if hi then 6 else 5). split; [destruct hi; reflexivity|]. do 3 right; left.
      exists hi, b. split; [reflexivity|]. split; [reflexivity|]. split; [apply waits_wait; assumption|exact L].
  - destruct x as [hj|].
    + destruct (Bool.eqb hj hi) eqn:E.
      * apply eqb_prop in E. subst hj. exists 13. split; [destruct hi; reflexivity|].
        do 5 right. split; [lia|]. apply waits_not_back.
      * assert (hj = negb hi) by (destruct hi, hj; try discriminate E; reflexivity). subst hj. clear E.
        exists (if hi then 7 else 8). split; [destruct hi; reflexivity|]. do 4 right; left.
        exists hi, b. split; [reflexivity|]. split; [reflexivity|]. apply waits_back. exact W.
    + exists 10. split; [destruct hi; reflexivity|]. do 5 right. split; [lia|]. apply waits_not_after_wait.
  - destruct x as [hj|].
    + destruct (Bool.eqb hj hi) eqn:E.
      * apply eqb_prop in E. subst hj. exists (if hi then 4 else 3). split; [destruct hi; reflexivity|].
        do 2 right; left. exists hi, (Level (negb hi) :: Wait :: Level hi :: b). split; [reflexivity|]. split; [reflexivity|].
        split; [apply waits_level_other; [discriminate|exact W]|]. eexists. reflexivity.
      * assert (hj = negb hi) by (destruct hi, hj; try discriminate E; reflexivity). subst hj. clear E.
        exists (if negb hi then 2 else 1). split; [destruct hi; reflexivity|]. right; left.
        exists (negb hi), (Level (negb hi) :: Wait :: Level hi :: b). split; [reflexivity|]. split; [reflexivity|].
        split; [apply waits_level_other; [discriminate|exact W]|]. right. eexists. reflexivity.
    + exists 12. split; [destruct hi; reflexivity|]. do 5 right. split; [lia|]. apply waits_not_stable. discriminate.
  - exists st. split.
    + unfold pulse_detect. destruct (Nat.ltb_spec st PD_NUM_VALID) as [C|C]; [unfold PD_NUM_VALID in C; lia|reflexivity].
    + do 5 right. split; [exact G|]. intros H. apply W. apply (waits_tail _ _ H).
Qed.

(** What the recorder knows about device [d] when the calls were [l] (newest first). *)
Definition here (d e : nat) : bool := recorded_as e =? d.
Definition knows (old : N) (l : list tcall) (s : rec) : Prop :=
  length (t_out s) = 13 /\ length (t_pulse s) = 13 /\
  (forall d, d < 13 -> nth_error (t_out s) d = Some (last_driven (here d) l)) /\
  (forall d, d < 13 -> exists st, nth_error (t_pulse s) d = Some st /\ st_inv st (happenings (here d) l)) /\
  t_code s = last_code old l /\ t_sent s = (if unread l then 1 else 0)%N.

Lemma knows_init : forall old l s, t_code s = last_code old l -> knows old (TCall EvArchInit :: l) (t_init s).
Proof.
  intros old l s H. split; [reflexivity|]. split; [reflexivity|]. split; [|split].
  - intros d L. unfold t_init. cbn [t_out last_driven]. apply nth_error_repeat_lt. exact L.
  - intros d L. exists 0. split; [unfold t_init; cbn [t_pulse]; apply nth_error_repeat_lt; exact L|]. left. auto.
  - split; [exact H|reflexivity].
Qed.

Lemma delay_loop_ok : forall l, Forall (fun st => exists st', pulse_detect st PDelay = Ok st') l ->
  exists l', delay_loop l = Ok l' /\ length l' = length l /\
    forall d st, nth_error l d = Some st -> exists st', pulse_detect st PDelay = Ok st' /\ nth_error l' d = Some st'.
Proof.
  induction l as [|x l IH]; intros F.
  - exists []. split; [reflexivity|]. split; [reflexivity|]. intros d st E. destruct d; discriminate E.
  - inversion F as [|y z (x' & Hx) F']; subst. destruct (IH F') as (l' & E & LL & K).
    exists (x' :: l'). split; [|split].
    + cbn [delay_loop]. rewrite Hx. cbn [bind]. rewrite E. reflexivity.
    + cbn [length]. lia.
    + intros d st E1. destruct d as [|d]; cbn [nth_error] in *.
      * injection E1 as <-. exists x'. auto.
      * apply K. exact E1.
Qed.

Lemma knows_delay : forall old l s c, knows old l s ->
  (forall d, happenings (here d) (c :: l) = Wait :: happenings (here d) l) ->
  (forall d, last_driven (here d) (c :: l) = last_driven (here d) l) ->
  last_code old (c :: l) = last_code old l -> unread (c :: l) = unread l ->
  exists s', t_delay s = Ok s' /\ knows old (c :: l) s'.
Proof.
  intros old l s c (K1 & K2 & K3 & K4 & K5 & K6) A1 A2 A3 A4.
  assert (F : Forall (fun st => exists st', pulse_detect st PDelay = Ok st') (t_pulse s)).
  { apply Forall_forall. intros st Hin. apply In_nth_error in Hin. destruct Hin as [d E].
    assert (d < 13) by (apply nth_error_Some_lt in E; lia).
    destruct (K4 d H) as (st0 & E0 & I). assert (st0 = st) by congruence. subst st0.
    destruct (st_step _ _ Wait I) as (st' & E1 & _). exists st'. exact E1. }
  destruct (delay_loop_ok _ F) as (p & E & LL & K). unfold t_delay. rewrite E. cbn [bind].
  eexists. split; [reflexivity|]. split; [exact K1|]. split; [cbn [t_pulse]; lia|]. split; [|split].
  - intros d L. rewrite A2. apply K3. exact L.
  - intros d L. destruct (K4 d L) as (st & E0 & I). destruct (K _ _ E0) as (st' & E1 & E2).
    destruct (st_step _ _ Wait I) as (st2 & E3 & I2). cbn [event_of] in E3. assert (st2 = st') by congruence. subst st2.
    exists st'. split; [exact E2|]. rewrite A1. exact I2.
  - cbn [t_code t_sent]. rewrite A3, A4. auto.
Qed.

Lemma knows_out : forall old l s e v, e < 13 -> knows old l s ->
  exists s', t_handler e v s = Ok s' /\ knows old (TCall (EvOut e v) :: l) s'.
Proof.
  intros old l s e v He (K1 & K2 & K3 & K4 & K5 & K6). rewrite handler_slot by exact He.
  pose proof (recorded_as_lt e He) as Hr. unfold t_set_output.
  rewrite lset_ok by lia. cbn [bind].
  destruct (K4 _ Hr) as (st & E0 & I). rewrite (proj2 (lget_ok _ _ _ _ _) E0). cbn [bind].
  destruct (st_step _ _ (Level (negb (v =? 0)%N)) I) as (st' & E1 & I').
  assert (E2 : pulse_detect st (if (v =? 0)%N then PSetLow else PSetHigh) = Ok st').
  { rewrite <- E1. destruct (v =? 0)%N; reflexivity. }
  rewrite E2. cbn [bind]. rewrite lset_ok by lia. cbn [bind].
  eexists. split; [reflexivity|]. unfold knows. cbn [t_out t_pulse t_code t_sent].
  split; [rewrite upd_length; exact K1|]. split; [rewrite upd_length; exact K2|]. split; [|split].
  - intros d L. cbn [last_driven]. unfold here at 1. destruct (Nat.eqb_spec (recorded_as e) d) as [<- | N].
    + apply nth_error_upd_same. lia.
    + rewrite nth_error_upd_other by congruence. apply K3. exact L.
  - intros d L. cbn [happenings]. unfold here at 1. destruct (Nat.eqb_spec (recorded_as e) d) as [<- | N].
    + exists st'. split; [apply nth_error_upd_same; lia|exact I'].
    + destruct (K4 d L) as (st2 & E3 & I3). exists st2. split; [|exact I3].
      rewrite nth_error_upd_other by congruence. exact E3.
  - split; [exact K5|exact K6].
Qed.

Lemma knows_step : forall old l s c, tcall_ok c -> knows old l s ->
  exists s', t_step c s = Ok s' /\ knows old (c :: l) s'.
Proof.
  intros old l s c Hc K. destruct c as [e|].
  - destruct e as [|d v| | |ms| | |c]; cbn [t_step t_call].
    + eexists. split; [reflexivity|]. apply knows_init. apply K.
    + apply knows_out; assumption.
    + apply knows_delay; try reflexivity; assumption.
    + apply knows_delay; try reflexivity; assumption.
    + apply knows_delay; try reflexivity; assumption.
    + exists s. split; [reflexivity|exact K].
    + exists s. split; [reflexivity|exact K].
    + eexists. split; [reflexivity|]. destruct K as (K1 & K2 & K3 & K4 & K5 & K6).
      unfold t_send_code, knows. cbn [t_out t_pulse t_code t_sent last_code unread]. auto 10.
  - destruct K as (K1 & K2 & K3 & K4 & K5 & K6). eexists. split; [reflexivity|].
    unfold t_get_sent_code, knows. cbn [snd t_out t_pulse t_code t_sent last_code unread]. auto 10.
Qed.

Lemma knows_run : forall l old past s, Forall tcall_ok l -> knows old past s ->
  exists s', t_run l s = Ok s' /\ knows old (rev l ++ past) s'.
Proof.
  induction l as [|c l IH]; intros old past s F K.
  - exists s. auto.
  - inversion F as [|x y Hc F']; subst. destruct (knows_step _ _ _ _ Hc K) as (s1 & E & K1).
    destruct (IH _ _ _ F' K1) as (s2 & E2 & K2). exists s2. split.
    + cbn [t_run]. rewrite E. exact E2.
    + cbn [rev]. rewrite <- app_assoc. exact K2.
Qed.

Lemma ld_init : forall h l, last_driven h (l ++ [TCall EvArchInit]) = last_driven h l.
Proof.
  induction l as [|c l IH]; [reflexivity|]. destruct c as [[]|]; cbn [app last_driven]; rewrite ?IH; reflexivity.
Qed.
Lemma hp_init : forall h l, happenings h (l ++ [TCall EvArchInit]) = happenings h l.
Proof.
  induction l as [|c l IH]; [reflexivity|]. destruct c as [[]|]; cbn [app happenings]; rewrite ?IH; reflexivity.
Qed.
Lemma lc_init : forall o l, last_code o (l ++ [TCall EvArchInit]) = last_code o l.
Proof. induction l as [|c l IH]; [reflexivity|]. destruct c as [[]|]; cbn [app last_code]; rewrite ?IH; reflexivity. Qed.
Lemma ur_init : forall l, unread (l ++ [TCall EvArchInit]) = unread l.
Proof. induction l as [|c l IH]; [reflexivity|]. destruct c as [[]|]; cbn [app unread]; rewrite ?IH; reflexivity. Qed.

(** Everything from initialisation on. *)
Lemma recorder : forall s0 l, Forall tcall_ok l ->
  exists s, t_run l (t_init s0) = Ok s /\
    (forall d, d < 13 -> nth_error (t_out s) d = Some (last_driven (here d) (rev l))) /\
    (forall d, d < 13 -> exists st, nth_error (t_pulse s) d = Some st /\ st_inv st (happenings (here d) (rev l))) /\
    t_code s = last_code (t_code s0) (rev l) /\ t_sent s = (if unread (rev l) then 1 else 0)%N.
Proof.
  intros s0 l F. destruct (knows_run l (t_code s0) [TCall EvArchInit] (t_init s0) F (knows_init (t_code s0) [] s0 eq_refl))
    as (s & E & _ & _ & K3 & K4 & K5 & K6).
  exists s. split; [exact E|]. split; [|split; [|split]].
  - intros d L. rewrite <- ld_init. apply K3. exact L.
  - intros d L. destruct (K4 d L) as (st & E1 & I). exists st. split; [exact E1|]. rewrite hp_init in I. exact I.
  - rewrite <- lc_init. exact K5.
  - rewrite <- ur_init. exact K6.
Qed.

Lemma here_plain : forall d, d < 13 -> is_open d = false -> forall e, here d e = (e =? d).
Proof.
  intros d L H e. unfold here, recorded_as. destruct (is_open e) eqn:E; [|reflexivity].
  destruct (Nat.eqb_spec e d) as [-> | N]; [congruence|].
  destruct (Nat.eqb_spec OUT1_OPEN_HI d) as [<- |]; [vm_compute in H; discriminate H|reflexivity].
Qed.
Lemma here_first : forall e, here OUT1_OPEN_HI e = is_open e.
Proof.
  intros e. unfold here, recorded_as. destruct (is_open e) eqn:E; [reflexivity|].
  destruct (Nat.eqb_spec e OUT1_OPEN_HI) as [-> |]; [vm_compute in E; discriminate E|reflexivity].
Qed.
Lemma here_other : forall d, is_open d = true -> d <> OUT1_OPEN_HI -> forall e, here d e = false.
Proof.
  intros d H N e. unfold here, recorded_as. destruct (is_open e) eqn:E.
  - apply Nat.eqb_neq. congruence.
  - apply Nat.eqb_neq. congruence.
Qed.
Lemma ld_ext : forall h1 h2 l, (forall e, h1 e = h2 e) -> last_driven h1 l = last_driven h2 l.
Proof.
  intros h1 h2 l H. induction l as [|c l IH]; [reflexivity|]. destruct c as [[]|]; cbn [last_driven]; rewrite ?IH, ?H; reflexivity.
Qed.
Lemma hp_ext : forall h1 h2 l, (forall e, h1 e = h2 e) -> happenings h1 l = happenings h2 l.
Proof.
  intros h1 h2 l H. induction l as [|c l IH]; [reflexivity|]. destruct c as [[]|]; cbn [happenings]; rewrite ?IH, ?H; reflexivity.
Qed.
Lemma ld_nowhere : forall l, last_driven (fun _ => false) l = 0%N.
Proof. induction l as [|c l IH]; [reflexivity|]. destruct c as [[]|]; cbn [last_driven]; auto. Qed.

(** ** C65 *)

(** The full claim: for every device [d], asdf_arch_check_output returns the
    value last driven on [d].  True for the outputs that are not open
    collector; the six open-collector ones share one record, the one of
    OUT1_OPEN_HI. *)
Theorem C65_recorded_outputs_partial : forall s0 l, Forall tcall_ok l ->
  exists s, t_run l (t_init s0) = Ok s /\
    (forall d, d < 13 -> is_open d = false -> t_check_output d s = Ok (last_driven (Nat.eqb d) (rev l))) /\
    t_check_output OUT1_OPEN_HI s = Ok (last_driven is_open (rev l)) /\
    (forall d, is_open d = true -> d <> OUT1_OPEN_HI -> t_check_output d s = Ok 0%N).
Proof.
  intros s0 l F. destruct (recorder s0 l F) as (s & E & K3 & _). exists s. split; [exact E|].
  unfold t_check_output. split; [|split].
  - intros d L H. apply lget_ok. rewrite K3 by exact L. f_equal. apply ld_ext. intros e.
    rewrite here_plain by assumption. apply Nat.eqb_sym.
  - apply lget_ok. rewrite K3 by (vm_compute; lia). f_equal. apply ld_ext. apply here_first.
  - intros d H N. assert (L : d < 13) by (do 13 (destruct d as [|d]; [lia|]); discriminate H).
    apply lget_ok. rewrite K3 by exact L. f_equal. rewrite <- (ld_nowhere (rev l)). apply ld_ext. apply here_other; assumption.
Qed.
Print Assumptions C65_recorded_outputs_partial.

Definition rec0 : rec := mkRec [] [] 0 0.
Definition t_ask {A} (q : rec -> outcome A) (l : list tcall) : outcome A := s <- t_run l (t_init rec0) ;; q s.

Example C65_case : Forall tcall_ok [TCall (EvOut 4 1); TCall (EvOut 9 1); TCall (EvOut 1 0)] /\
  t_ask (t_check_output 4) [TCall (EvOut 4 1); TCall (EvOut 9 1); TCall (EvOut 1 0)] = Ok 1%N.
Proof. split; [repeat constructor; cbn; lia|vm_compute; reflexivity]. Qed.

(** Driving OUT3_OPEN_HI (the RESET line) is recorded as OUT1_OPEN_HI. *)
Theorem C65_recorded_outputs_refuted : exists s0 l d s, Forall tcall_ok l /\ d < 13 /\
  t_run l (t_init s0) = Ok s /\
  t_check_output d s = Ok 0%N /\ last_driven (Nat.eqb d) (rev l) = 1%N /\
  exists e, e <> d /\ t_check_output e s = Ok 1%N /\ last_driven (Nat.eqb e) (rev l) = 0%N.
Proof.
  exists rec0, [TCall (EvOut OUT3_OPEN_HI 1)], OUT3_OPEN_HI. eexists.
  split; [repeat constructor; cbn; lia|]. split; [vm_compute; lia|].
  split; [vm_compute; reflexivity|]. split; [reflexivity|]. split; [reflexivity|].
  exists OUT1_OPEN_HI. split; [vm_compute; lia|]. split; reflexivity.
Qed.
Print Assumptions C65_recorded_outputs_refuted.

(** ** C66 *)
Theorem C66_pulse_detector : forall s0 l d, Forall tcall_ok l -> d < 13 -> is_open d = false ->
  exists s st, t_run l (t_init s0) = Ok s /\ t_check_pulse d s = Ok st /\
    let h := happenings (Nat.eqb d) (rev l) in
    (st = PD_PULSE_HIGH <-> all_waits_in_pulses h /\ just_pulsed true h) /\
    (st = PD_PULSE_LOW <-> all_waits_in_pulses h /\ just_pulsed false h) /\
    (PD_NUM_VALID <= st <-> ~ all_waits_in_pulses h).
Proof.
  intros s0 l d F L O. destruct (recorder s0 l F) as (s & E & _ & K4 & _).
  destruct (K4 d L) as (st & E1 & I). exists s, st. split; [exact E|].
  split; [apply lget_ok; exact E1|]. cbv zeta.
  rewrite (hp_ext (here d) (Nat.eqb d)) in I by (intros e; rewrite here_plain by assumption; apply Nat.eqb_sym).
  set (h := happenings (Nat.eqb d) (rev l)) in *. clearbody h. clear - I.
  unfold PD_PULSE_HIGH, PD_PULSE_LOW, PD_NUM_VALID, just_pulsed.
  destruct I as [(-> & ->) | [(hi & b & -> & -> & W & LV) | [(hi & b & -> & -> & W & LV) |
    [(hi & b & -> & -> & W & LV) | [(hi & b & -> & -> & W) | (G & W)]]]]].
  - split; [|split]; split; intros H; try lia.
    + destruct H as (_ & t & H). discriminate H.
    + destruct H as (_ & t & H). discriminate H.
    + exfalso. apply H. apply waits_nil.
  - split; [|split]; split; intros H; try (destruct hi; lia).
    + exfalso. destruct H as (_ & t & H). injection H as -> ->. destruct LV as [LV | (u & LV)]; discriminate LV.
    + exfalso. destruct H as (_ & t & H). injection H as -> ->. destruct LV as [LV | (u & LV)]; discriminate LV.
    + contradiction.
  - split; [|split]; split; intros H; try (destruct hi; lia).
    + exfalso. destruct H as (_ & t & H). injection H as _ H. destruct LV as (u & LV). congruence.
    + exfalso. destruct H as (_ & t & H). injection H as _ H. destruct LV as (u & LV). congruence.
    + contradiction.
  - split; [|split]; split; intros H; try (destruct hi; lia).
    + destruct H as (_ & t & H). discriminate H.
    + destruct H as (_ & t & H). discriminate H.
    + contradiction.
  - split; [|split]; split; intros H.
    + destruct hi; [|lia]. split; [exact W|exists b; reflexivity].
    + destruct H as (_ & t & H). destruct hi; [reflexivity|discriminate H].
    + destruct hi; [lia|]. split; [exact W|exists b; reflexivity].
    + destruct H as (_ & t & H). destruct hi; [discriminate H|reflexivity].
    + destruct hi; lia.
    + contradiction.
  - split; [|split]; split; intros H; try lia.
    + destruct H; contradiction.
    + destruct H; contradiction.
    + exact W.
Qed.
Print Assumptions C66_pulse_detector.

(** Two pulses of OUT1 in a row are both seen; and what the claim says about them. *)
Definition pulse_of (d : nat) : list tcall := [TCall (EvOut d 1); TCall EvPulseShort; TCall (EvOut d 0)].
Example C66_case :
  Forall tcall_ok (TCall (EvOut OUT1 0) :: pulse_of OUT1 ++ pulse_of OUT1) /\ is_open OUT1 = false /\
  t_ask (t_check_pulse OUT1) (TCall (EvOut OUT1 0) :: pulse_of OUT1 ++ pulse_of OUT1) = Ok PD_PULSE_HIGH /\
  just_pulsed true (happenings (Nat.eqb OUT1) (rev (TCall (EvOut OUT1 0) :: pulse_of OUT1 ++ pulse_of OUT1))).
Proof.
  split; [repeat constructor; cbn; lia|]. split; [reflexivity|]. split; [vm_compute; reflexivity|].
  eexists. vm_compute. reflexivity.
Qed.

(** ** C67 *)

(** The full claim: a pulse of [d], starting from a stable level, is reported
    whatever happened before.  What is missing: it fails after a wait outside a
    pulse of the same output, in particular after a pulse of any other one. *)
Theorem C67_pulses_independent_partial : forall s0 l d v w hi, Forall tcall_ok l -> d < 13 -> is_open d = false ->
  (v =? 0)%N = negb hi -> (w =? 0)%N = hi ->
  let h := happenings (Nat.eqb d) (rev l) in
  all_waits_in_pulses h -> (exists t, h = Level (negb hi) :: t) ->
  forall delay, In delay [EvPulseShort; EvPulseLong] ->
  exists s, t_run (l ++ [TCall (EvOut d v); TCall delay; TCall (EvOut d w)]) (t_init s0) = Ok s /\
    t_check_pulse d s = Ok (if hi then PD_PULSE_HIGH else PD_PULSE_LOW).
Proof.
  intros s0 l d v w hi F L O V W h A (t & T) delay D.
  destruct (C66_pulse_detector s0 (l ++ [TCall (EvOut d v); TCall delay; TCall (EvOut d w)]) d) as (s & st & E & C & P).
  { apply Forall_app. split; [exact F|]. constructor; [exact L|].
    constructor; [destruct D as [<- | [<- | []]]; exact I|]. constructor; [exact L|constructor]. }
  { exact L. } { exact O. }
  exists s. split; [exact E|]. rewrite C. f_equal. cbv zeta in P.
  assert (Eh : happenings (Nat.eqb d) (rev (l ++ [TCall (EvOut d v); TCall delay; TCall (EvOut d w)])) =
               Level (negb hi) :: Wait :: Level hi :: h).
  { rewrite rev_app_distr. cbn [rev app]. cbn [happenings]. rewrite Nat.eqb_refl, W.
    destruct D as [<- | [<- | []]]; cbn [happenings]; rewrite ?Nat.eqb_refl, V, negb_involutive; reflexivity. }
  rewrite Eh in P. destruct P as (P1 & P2 & _).
  assert (G : all_waits_in_pulses (Level (negb hi) :: Wait :: Level hi :: h)).
  { apply waits_back. apply waits_wait; [exists t; exact T|].
    apply waits_level_other; [rewrite T; discriminate|exact A]. }
  destruct hi.
  - apply P1. split; [exact G|]. exists h. reflexivity.
  - apply P2. split; [exact G|]. exists h. reflexivity.
Qed.
Print Assumptions C67_pulses_independent_partial.

Example C67_case : let l := TCall (EvOut OUT2 0) :: pulse_of OUT2 in let h := happenings (Nat.eqb OUT2) (rev l) in
  all_waits_in_pulses h /\ exists t, h = Level (negb true) :: t.
Proof.
  cbv zeta. split; [|eexists; vm_compute; reflexivity].
  destruct (C66_pulse_detector rec0 (TCall (EvOut OUT2 0) :: pulse_of OUT2) OUT2) as (s & st & E & C & P1 & P2 & P3).
  { repeat constructor; cbn; lia. } { vm_compute; lia. } { reflexivity. }
  apply P1. assert (X : t_ask (t_check_pulse OUT2) (TCall (EvOut OUT2 0) :: pulse_of OUT2) = Ok PD_PULSE_HIGH) by (vm_compute; reflexivity).
  unfold t_ask in X. rewrite E in X. cbn [bind] in X. congruence.
Qed.

(** OUT1 pulses; after that no pulse of OUT2 is ever reported. *)
Theorem C67_pulses_independent_refuted : exists s0 l, Forall tcall_ok l /\
  (exists s, t_run l (t_init s0) = Ok s /\ t_check_pulse OUT2 s = Ok PD_STABLE_LOW) /\
  exists s, t_run (l ++ pulse_of OUT1 ++ pulse_of OUT2) (t_init s0) = Ok s /\
    t_check_pulse OUT1 s <> Ok PD_PULSE_HIGH /\ t_check_pulse OUT2 s = Ok PD_ERR_NO_TRANSITION_BEFORE.
Proof.
  exists rec0, [TCall (EvOut OUT1 0); TCall (EvOut OUT2 0)].
  split; [repeat constructor; cbn; lia|]. split.
  - eexists. split; [vm_compute; reflexivity|]. vm_compute. reflexivity.
  - eexists. split; [vm_compute; reflexivity|]. split; [vm_compute; discriminate|vm_compute; reflexivity].
Qed.
Print Assumptions C67_pulses_independent_refuted.

(** ** C68 *)
Theorem C68_sent_code : forall s0 l, Forall tcall_ok l ->
  exists s, t_run l (t_init s0) = Ok s /\
    (t_was_code_sent s = if unread (rev l) then 1 else 0)%N /\
    fst (t_get_sent_code s) = last_code (t_code s0) (rev l) /\
    t_was_code_sent (snd (t_get_sent_code s)) = 0%N /\
    (unread (rev l) = true <->
       exists a c b, l = a ++ TCall (EvSend c) :: b /\ ~ In TGetCode b /\ ~ In (TCall EvArchInit) b /\
                     fst (t_get_sent_code s) = last_code c (rev b)).
Proof.
  intros s0 l F. destruct (recorder s0 l F) as (s & E & _ & _ & K5 & K6). exists s. split; [exact E|].
  split; [exact K6|]. split; [exact K5|]. split; [reflexivity|].
  unfold t_get_sent_code. cbn [fst]. rewrite K5. clear. set (o := t_code s0). clearbody o. clear s0.
  induction l as [|x l IH] using rev_ind.
  - cbn. split; [discriminate|]. intros (a & c & b & H & _). destruct a; discriminate H.
  - rewrite rev_app_distr. cbn [rev app].
    destruct x as [e|]; [destruct e as [| | | | | | |c]|]; cbn [unread last_code]; try (rewrite IH; clear IH; split;
      [ intros (a & c0 & b & -> & N1 & N2 & HL);
        match goal with |- exists _ _ _, (_ ++ _ :: _) ++ [?y] = _ /\ _ => exists a, c0, (b ++ [y]) end;
        split; [rewrite <- app_assoc; reflexivity|]; split;
          [rewrite in_app_iff; intros [X|[X|[]]]; [auto|discriminate X]|]; split;
          [rewrite in_app_iff; intros [X|[X|[]]]; [auto|discriminate X]|];
        rewrite (rev_app_distr b); cbn [rev app last_code]; exact HL
      | intros (a & c0 & b & HE & N1 & N2 & HL);
        destruct b as [|z b] using rev_ind; [apply app_inj_tail in HE; destruct HE as [_ HE]; discriminate HE|];
        rewrite app_comm_cons, app_assoc in HE; apply app_inj_tail in HE; destruct HE as [HE HZ]; subst z l;
        exists a, c0, b; split; [reflexivity|]; rewrite in_app_iff in N1, N2; split; [tauto|]; split; [tauto|];
        rewrite (rev_app_distr b) in HL; cbn [rev app last_code] in HL; exact HL ]).
    + split; [discriminate|]. intros (a & c0 & b & HE & N1 & N2 & HL). exfalso.
      destruct b as [|z b] using rev_ind; [apply app_inj_tail in HE; destruct HE as [_ HE]; discriminate HE|].
      rewrite app_comm_cons, app_assoc in HE. apply app_inj_tail in HE. destruct HE as [_ <-].
      apply N2. rewrite in_app_iff. right. left. reflexivity.
    + split; [|reflexivity]. intros _. exists l, c, []. split; [reflexivity|]. split; [auto|]. split; [auto|]. reflexivity.
    + split; [discriminate|]. intros (a & c0 & b & HE & N1 & N2 & HL). exfalso.
      destruct b as [|z b] using rev_ind; [apply app_inj_tail in HE; destruct HE as [_ HE]; discriminate HE|].
      rewrite app_comm_cons, app_assoc in HE. apply app_inj_tail in HE. destruct HE as [_ <-].
      apply N1. rewrite in_app_iff. right. left. reflexivity.
Qed.
Print Assumptions C68_sent_code.

Example C68_case : let l := [TCall (EvSend 65); TGetCode; TCall (EvSend 66); TCall (EvOut 1 1)] in
  Forall tcall_ok l /\ unread (rev l) = true /\ last_code 0 (rev l) = 66%N.
Proof. cbv zeta. split; [repeat constructor; cbn; lia|split; reflexivity]. Qed.
