(** Typing from rest, end to end: C72, C73. *)
From Coq Require Import List NArith ZArith Arith Bool Lia.
From Coq Require Import ZifyBool ZifyNat ZifyN.
From Verif Require Import Base Lib Buffer BufferSpec BufferProofs Repeat Devices DevSpec DevProofs
     Modifiers Hook KeymapData Asdf KeySpec KeyRef Obs Frames PropModState PropQueues PropHold PropLeds.
Import ListNotations.

(** ** Specification *)

(** The contacts closed are exactly those of [D]. *)
Definition shows (D : nat -> nat -> bool) (rd : nat -> N) : Prop :=
  forall r c, r < 9 -> c < 8 -> reading rd r c = D r c.

(** The modifiers, and what pressing and releasing a modifier key does to them. *)
Record modes := mkModes { ctrl_m : bool; shift_m : bool; caps_m : bool }.
Definition mod_press (x : action) (m : modes) : option modes :=
  match x with
  | AShift => Some (mkModes (ctrl_m m) true (caps_m m))
  | ACtrl => Some (mkModes true (shift_m m) (caps_m m))
  | ACaps => Some (mkModes (ctrl_m m) (shift_m m) (negb (caps_m m)))
  | _ => None
  end.
Definition mod_release (x : action) (m : modes) : option modes :=
  match x with
  | AShift => Some (mkModes (ctrl_m m) false (caps_m m))
  | ACtrl => Some (mkModes false (shift_m m) (caps_m m))
  | ACaps => Some m
  | _ => None
  end.

(** Code of key (r, c) of keyboard [k] under the modifiers [m]: maps 3 ctrl,
    1 shift, 2 caps, 0 plain. *)
Definition map_of (m : modes) : nat := if ctrl_m m then 3 else if shift_m m then 1 else if caps_m m then 2 else 0.
Definition code_of (k : N) (m : modes) (r c : nat) : N := code_at k (map_of m) r c.

(** No key of [D] carries the code [x]. *)
Definition free_of (k : N) (m : modes) (D : nat -> nat -> bool) (x : N) : Prop :=
  forall r c, r < 9 -> c < 8 -> D r c = true -> code_of k m r c <> x.

(** One after the other: waiting, a keystroke, a modifier key going down or up.
    [D], [m] are the keys held and the modifiers before, [D'], [m'] afterwards;
    [out] is what the host is to receive.  Every contact change is kept for at
    least ten scans. *)
Inductive session (k : N) : (nat -> nat -> bool) -> modes -> list (nat -> N) -> list N ->
    (nat -> nat -> bool) -> modes -> Prop :=
| s_done : forall D m, session k D m [] [] D m
| s_wait : forall D m rd rds out D' m', shows D rd -> free_of k m D 0xA0 ->
    session k D m rds out D' m' -> session k D m (rd :: rds) out D' m'
| s_stroke : forall D m r c press gap rds out D' m', r < 9 -> c < 8 -> D r c = false ->
    (code_of k m r c < 0xA0)%N -> free_of k m D 0xA0 -> free_of k m D (code_of k m r c) ->
    Forall (shows (set2 D r c true)) press -> 10 <= length press ->
    Forall (shows D) gap -> length gap = 10 ->
    session k D m rds out D' m' ->
    session k D m (press ++ gap ++ rds)
      (repeat (code_of k m r c) (typed 10 (S (length press))) ++ out) D' m'
| s_press : forall D m r c m1 press rds out D' m', r < 9 -> c < 8 -> D r c = false ->
    mod_press (decode (code_of k m r c)) m = Some m1 ->
    free_of k m D 0xA0 -> free_of k m1 D 0xA0 ->
    Forall (shows (set2 D r c true)) press -> length press = 10 ->
    session k (set2 D r c true) m1 rds out D' m' ->
    session k D m (press ++ rds) out D' m'
| s_release : forall D m r c m1 gap rds out D' m', r < 9 -> c < 8 -> D r c = true ->
    mod_release (decode (code_of k m r c)) m = Some m1 ->
    free_of k m (set2 D r c false) 0xA0 -> free_of k m1 (set2 D r c false) 0xA0 ->
    Forall (shows (set2 D r c false)) gap -> length gap = 10 ->
    session k (set2 D r c false) m1 rds out D' m' ->
    session k D m (gap ++ rds) out D' m'.

(** Nothing pending: all contacts settled, nothing queued, nothing repeating. *)
Definition at_rest (s : kb) : Prop :=
  k_last s = 0xA0%N /\ key_queue s = [] /\ msg_queue s = [] /\ r_state (k_rep s) = RAuto /\
  (forall r c, r < 9 -> c < 8 -> count s r c = 10).
Definition modes_of (s : kb) : modes := mkModes (ctrl_on s) (shift_on s) (caps_on s).

(** ** The abstract machine between and during keystrokes *)
Definition amodes (a : akb) : modes :=
  mkModes (negb (m_ctrl (a_mod a) =? 0)%N) (negb (m_shift (a_mod a) =? 0)%N) (negb (m_caps (a_mod a) =? 0)%N).
Lemma amodes_map : forall a m, amodes a = m -> map_now (a_mod a) = map_of m.
Proof. intros a m <-. reflexivity. Qed.

Record Pose (k : N) (D : nat -> nat -> bool) (C : nat -> nat -> N) (m : modes) (last : N) (q : list N) (a : akb) : Prop := mkPose {
  ps_cur : a_cur a = k;
  ps_mod : amodes a = m;
  ps_last : a_last a = last;
  ps_qm : a_qm a = [];
  ps_qk : a_qk a = q;
  ps_dn : forall r c, r < 9 -> c < 8 -> a_dn a r c = D r c;
  ps_ct : forall r c, r < 9 -> c < 8 -> a_ct a r c = C r c;
  ps_auto : r_state (a_rep a) = RAuto;
  ps_caps : (m_caps (a_mod a) < 2)%N
}.
(** The codes sent; a call that takes time or initialises the hardware shows as
    a number that is no code. *)
Definition instant (e : event) : Prop := match e with EvDelayMs _ | EvPulseLong | EvArchInit => False | _ => True end.
Definition timeless (e : event) : Prop := match e with EvDelayMs _ | EvPulseLong => False | _ => True end.
Lemma instant_timeless : forall l, Forall instant l -> Forall timeless l.
Proof. intros l. apply Forall_impl. intros e. destruct e; cbn; auto. Qed.
Definition vis (l : list event) : list N :=
  flat_map (fun e => match e with EvSend c => [c] | EvDelayMs _ | EvPulseLong | EvArchInit => [1000%N] | _ => [] end) l.
Definition out (a : akb) : list N := vis (rev (a_log a)).
Lemma vis_app : forall l k, vis (l ++ k) = vis l ++ vis k.
Proof. intros. apply flat_map_app. Qed.
Lemma vis_clean : forall l, Forall (fun x => x < 0xA0)%N (vis l) -> sends l = vis l /\ Forall instant l.
Proof.
  induction l as [|e l IH]; intros H; [split; constructor|]. change (e :: l) with ([e] ++ l) in *. rewrite vis_app, sends_app in *.
  apply Forall_app in H. destruct H as [H1 H2]. destruct (IH H2) as [I1 I2]. rewrite I1.
  destruct e; cbn in H1 |- *; try (inv H1; lia); split; auto; constructor; cbn; auto.
Qed.

Lemma pose_send : forall k D C m last q a, Pose k D C m last q a -> length q <= 1 -> Forall (fun x => x < 0xA0)%N q ->
  Pose k D C m last [] (asend a) /\ a_rep (asend a) = a_rep a /\ out (asend a) = out a ++ q.
Proof.
  intros k D C m last q a [P1 P2 P3 P4 P5 P6 P7 P8 P9] Hl Hq. destruct (asend_dn a) as [ED EC].
  split; [|split; [apply send_rep|]].
  - constructor; auto; try (unfold amodes; rewrite ?send_cur, ?send_mod, ?send_last, ?send_rep; auto; fail).
    + unfold asend. rewrite P4. destruct (a_qk a); [auto|]. destruct (_ <? _)%N; auto.
    + unfold asend. rewrite P4. destruct (a_qk a) as [|x l] eqn:E; [auto|]. subst q. cbn [length] in Hl.
      destruct l; [|cbn [length] in Hl; lia]. destruct (_ <? _)%N; auto.
    + rewrite ED. auto.
    + rewrite EC. auto.
  - unfold asend, out. rewrite P4, P5. destruct q as [|x l]; [rewrite app_nil_r; auto|].
    destruct l; [|cbn [length] in Hl; lia]. inv Hq. replace (x <? 0xA0)%N with true by lia.
    cbn [a_log note put_log put_qk rev]. rewrite vis_app. reflexivity.
Qed.

Lemma pose_steady : forall k D C m last q a rd r c (L : N -> Prop), (k < 4)%N -> Pose k D C m last q a ->
  (forall r' c', r' < 9 -> c' < 8 -> ~ (r' = r /\ c' = c) ->
     reading rd r' c' = D r' c' /\ (D r' c' = true -> ~ L (code_of k m r' c'))) ->
  Steady rd r c L a.
Proof.
  intros k D C m last q a rd r c L Hk P H. split; [rewrite (ps_cur _ _ _ _ _ _ _ P); auto|].
  intros r' c' Hr Hc Hn. unfold code_now. rewrite (ps_cur _ _ _ _ _ _ _ P), (amodes_map _ _ (ps_mod _ _ _ _ _ _ _ P)).
  rewrite (ps_dn _ _ _ _ _ _ _ P) by auto. apply H; auto.
Qed.

(** Ticks in which at most key (r, c) is not as accepted. *)
Definition others (k : N) (m : modes) (D : nat -> nat -> bool) (r c : nat) (L : N -> Prop) (rd : nat -> N) : Prop :=
  forall r' c', r' < 9 -> c' < 8 -> ~ (r' = r /\ c' = c) ->
    reading rd r' c' = D r' c' /\ (D r' c' = true -> ~ L (code_of k m r' c')).

Lemma pose_tick : forall k D C m last q a rd r c (L : N -> Prop) b D2 C2 m2 last2 q2,
  (k < 4)%N -> r < 9 -> c < 8 -> Pose k D C m last q a -> length q <= 1 -> Forall (fun x => x < 0xA0)%N q ->
  others k m D r c L rd -> L last ->
  key_step rd r c (asend a) = Some b -> Pose k D2 C2 m2 last2 q2 b ->
  others k m2 D2 r c L rd -> L last2 ->
  atick rd a = Some b.
Proof.
  intros k D C m last q a rd r c L b D2 C2 m2 last2 q2 Hk Hr Hc P Hl Hq HO HL E P2 HO2 HL2.
  destruct (pose_send _ _ _ _ _ _ _ P Hl Hq) as (PS&_&_).
  rewrite (one_key_tick rd r c L); auto.
  - apply (pose_steady _ _ _ _ _ _ _ _ _ _ _ Hk PS). exact HO.
  - rewrite (ps_last _ _ _ _ _ _ _ P). auto.
  - intros b' E'. rewrite E in E'. inv E'. split.
    + apply (pose_steady _ _ _ _ _ _ _ _ _ _ _ Hk P2). exact HO2.
    + rewrite (ps_last _ _ _ _ _ _ _ P2). auto.
Qed.

Lemma set2_at : forall A (f : nat -> nat -> A) r c x, set2 f r c x r c = x.
Proof. intros. unfold set2. rewrite !Nat.eqb_refl. reflexivity. Qed.
Lemma set2_off : forall A (f : nat -> nat -> A) r c x r' c', ~ (r' = r /\ c' = c) -> set2 f r c x r' c' = f r' c'.
Proof. intros A f r c x r' c' H. unfold set2. destruct (Nat.eqb_spec r' r), (Nat.eqb_spec c' c); cbn [andb]; auto. tauto. Qed.
Lemma set2_cong : forall A (f g : nat -> nat -> A) r c x r' c', f r' c' = g r' c' -> set2 f r c x r' c' = set2 g r c x r' c'.
Proof. intros A f g r c x r' c' H. unfold set2. destruct (_ && _); auto. Qed.

(** *** Waiting *)
Lemma wait_tick : forall k D C m a rd, (k < 4)%N -> Pose k D C m 0xA0 [] a -> shows D rd -> free_of k m D 0xA0 ->
  atick rd a = Some a.
Proof.
  intros k D C m a rd Hk P HS HF.
  destruct (pose_send _ _ _ _ _ _ _ P) as (PS&_&_); [cbn; lia|constructor|].
  assert (SA : asend a = a) by (unfold asend; rewrite (ps_qm _ _ _ _ _ _ _ P), (ps_qk _ _ _ _ _ _ _ P); auto).
  assert (HO : others k m D 0 0 (eq 0xA0%N) rd).
  { intros r c Hr Hc Hn. split; auto. intros HD E. apply (HF r c); auto. }
  apply (pose_tick k D C m 0xA0%N [] a rd 0 0 (eq 0xA0%N) a D C m 0xA0%N []); auto; try (cbn; lia).
  assert (RD : reading rd 0 0 = D 0 0) by (apply HS; lia).
  rewrite SA. unfold key_step, acode. cbv zeta. rewrite (ps_dn _ _ _ _ _ _ _ P) by lia. rewrite RD, eqb_reflx.
  destruct (D 0 0) eqn:D0; auto. rewrite (ps_cur _ _ _ _ _ _ _ P), (amodes_map _ _ (ps_mod _ _ _ _ _ _ _ P)).
  replace (k <? 4)%N with true by lia. cbn [obind]. unfold aheld. rewrite (ps_last _ _ _ _ _ _ _ P).
  destruct (N.eqb_spec (code_at k (map_of m) 0 0) 0xA0); auto. exfalso. apply (HF 0 0); auto; lia.
Qed.

(** *** A contact change not yet accepted *)
Lemma count_tick : forall k D C m last q a rd r c (L : N -> Prop), (k < 4)%N -> r < 9 -> c < 8 ->
  Pose k D C m last q a -> length q <= 1 -> Forall (fun x => x < 0xA0)%N q ->
  others k m D r c L rd -> L last -> reading rd r c = negb (D r c) -> (C r c <> 1)%N ->
  exists a', atick rd a = Some a' /\ Pose k D (set2 C r c (C r c - 1)%N) m last [] a' /\ out a' = out a ++ q.
Proof.
  intros k D C m last q a rd r c L Hk Hr Hc P Hl Hq HO HL RD HC.
  destruct (pose_send _ _ _ _ _ _ _ P Hl Hq) as (PS&RS&OS).
  set (b := put_ct (set2 (a_ct (asend a)) r c (C r c - 1)%N) (asend a)).
  assert (PB : Pose k D (set2 C r c (C r c - 1)%N) m last [] b).
  { destruct PS as [P1 P2 P3 P4 P5 P6 P7 P8 P9]. constructor; auto. intros r' c' Hr' Hc'. cbn [a_ct put_ct b].
    apply set2_cong. auto. }
  exists b. split; [|auto].
  apply (pose_tick k D C m last q a rd r c L b D (set2 C r c (C r c - 1)%N) m last []); auto.
  unfold key_step. cbv zeta. rewrite (ps_dn _ _ _ _ _ _ _ PS), (ps_ct _ _ _ _ _ _ _ PS), RD by auto.
  replace (Bool.eqb (negb (D r c)) (D r c)) with false by (destruct (D r c); auto).
  replace (C r c =? 1)%N with false by lia. reflexivity.
Qed.

(** *** A contact change accepted *)
Lemma accept_step : forall k D C m last a rd r c, (k < 4)%N -> r < 9 -> c < 8 ->
  Pose k D C m last [] a -> reading rd r c = negb (D r c) -> (C r c = 1)%N ->
  Pose k (set2 D r c (negb (D r c))) (set2 C r c 10%N) m last [] (accept r c (negb (D r c)) a) /\
  key_step rd r c a = Some ((if negb (D r c) then apress else arelease) (code_of k m r c) (accept r c (negb (D r c)) a)).
Proof.
  intros k D C m last a rd r c Hk Hr Hc P RD HC. split.
  - destruct P as [P1 P2 P3 P4 P5 P6 P7 P8 P9]. constructor; auto; intros r' c' Hr' Hc'; cbn [a_dn a_ct accept put_dn put_ct]; apply set2_cong; auto.
  - unfold key_step, acode. cbv zeta. rewrite (ps_dn _ _ _ _ _ _ _ P), (ps_ct _ _ _ _ _ _ _ P), RD by auto.
    replace (Bool.eqb (negb (D r c)) (D r c)) with false by (destruct (D r c); auto).
    rewrite HC. cbv zeta. cbn [N.eqb Pos.eqb a_cur a_mod put_dn put_ct].
    rewrite (ps_cur _ _ _ _ _ _ _ P), (amodes_map _ _ (ps_mod _ _ _ _ _ _ _ P)). replace (k <? 4)%N with true by lia. cbn [obind].
    fold (accept r c (negb (D r c)) a). unfold code_of. destruct (D r c); reflexivity.
Qed.

Lemma count_ticks : forall rds k D C m last q a r c (L : N -> Prop), (k < 4)%N -> r < 9 -> c < 8 ->
  Pose k D C m last q a -> length q <= 1 -> Forall (fun x => x < 0xA0)%N q -> L last ->
  Forall (fun rd => others k m D r c L rd /\ reading rd r c = negb (D r c)) rds ->
  (N.of_nat (length rds) < C r c)%N -> (q <> [] -> rds <> []) ->
  exists a', aticks rds a = Some a' /\ Pose k D (set2 C r c (C r c - N.of_nat (length rds))%N) m last [] a' /\ out a' = out a ++ q.
Proof.
  induction rds as [|rd rds IH]; intros k D C m last q a r c L Hk Hr Hc P Hl Hq HL HF HC HN.
  - assert (q = []) as -> by (destruct q; auto; exfalso; apply HN; congruence).
    exists a. rewrite app_nil_r. split; [reflexivity|]. split; auto.
    destruct P as [P1 P2 P3 P4 P5 P6 P7 P8 P9]. constructor; auto. intros r' c' Hr' Hc'. rewrite P7 by auto.
    unfold set2. destruct (Nat.eqb_spec r' r), (Nat.eqb_spec c' c); cbn [andb]; auto. subst. cbn. lia.
  - inv HF. destruct H1 as [HO RD]. cbn [length] in HC.
    destruct (count_tick k D C m last q a rd r c L) as (b&E&PB&OB); auto; [lia|].
    destruct (IH k D (set2 C r c (C r c - 1)%N) m last [] b r c L) as (a'&E'&P'&O'); auto.
    { rewrite set2_at. lia. }
    exists a'. cbn [aticks]. rewrite E. cbn [obind]. rewrite app_nil_r in O'. split; auto. split; [|congruence].
    destruct P' as [P1 P2 P3 P4 P5 P6 P7 P8 P9]. constructor; auto. intros r' c' Hr' Hc'. rewrite P7 by auto. cbn [length].
    unfold set2. rewrite !Nat.eqb_refl. cbn [andb].
    destruct (Nat.eqb_spec r' r), (Nat.eqb_spec c' c); cbn [andb]; auto. lia.
Qed.

Lemma pose_ext : forall k D D' C C' m last q a, Pose k D C m last q a ->
  (forall r c, r < 9 -> c < 8 -> D r c = D' r c) -> (forall r c, r < 9 -> c < 8 -> C r c = C' r c) ->
  Pose k D' C' m last q a.
Proof.
  intros k D D' C C' m last q a [P1 P2 P3 P4 P5 P6 P7 P8 P9] HD HC. constructor; auto; intros r c Hr Hc.
  - rewrite <- HD; auto.
  - rewrite <- HC; auto.
Qed.

Definition settled : nat -> nat -> N := fun _ _ => 10%N.

Lemma others_of : forall k m D r c x y (rd : nat -> N) b, shows (set2 D r c b) rd ->
  free_of k m (set2 D r c false) x -> free_of k m (set2 D r c false) y -> others k m D r c (fun z => z = x \/ z = y) rd.
Proof.
  intros k m D r c x y rd b HS HX HY r' c' Hr Hc Hn. split.
  - rewrite HS by auto. apply set2_off; auto.
  - intros HD [E|E]; [apply (HX r' c' Hr Hc)|apply (HY r' c' Hr Hc)]; auto; rewrite set2_off; auto.
Qed.
Lemma others_set : forall k m D r c L rd v, others k m D r c L rd -> others k m (set2 D r c v) r c L rd.
Proof. intros k m D r c L rd v H r' c' Hr Hc Hn. rewrite set2_off by auto. auto. Qed.

Lemma aticks_cut : forall n rds a, aticks rds a = obind (aticks (firstn n rds) a) (aticks (skipn n rds)).
Proof. intros n rds a. rewrite <- (firstn_skipn n rds) at 1. apply aticks_app. Qed.

(** *** A contact change kept for ten scans *)
Lemma keep_ten : forall rds k D m last q a r c (L : N -> Prop), (k < 4)%N -> r < 9 -> c < 8 ->
  Pose k D settled m last q a -> length q <= 1 -> Forall (fun x => x < 0xA0)%N q -> L last ->
  length rds = 10 ->
  Forall (fun rd => others k m D r c L rd /\ reading rd r c = negb (D r c)) rds ->
  exists rd a1 C1, In rd rds /\ Pose k D C1 m last [] a1 /\ C1 r c = 1%N /\ out a1 = out a ++ q /\
    (forall r' c', r' < 9 -> c' < 8 -> set2 C1 r c 10%N r' c' = 10%N) /\
    aticks rds a = atick rd a1.
Proof.
  intros rds k D m last q a r c L Hk Hr Hc P Hl Hq HL LEN HF.
  assert (SP : exists l rd, rds = l ++ [rd] /\ length l = 9).
  { destruct (rev rds) as [|rd l] eqn:E.
    - apply (f_equal (@length _)) in E. rewrite rev_length in E. cbn in E. lia.
    - exists (rev l), rd. rewrite <- (rev_involutive rds), E. split; auto. apply (f_equal (@length _)) in E.
      rewrite rev_length in *. cbn [length] in E. lia. }
  destruct SP as (l&rd&->&LL). apply Forall_app in HF. destruct HF as [F1 F2].
  destruct (count_ticks l k D settled m last q a r c L) as (a1&E1&P1&O1); auto.
  { rewrite LL. reflexivity. }
  { intros _ ->. discriminate LL. }
  rewrite LL in P1. exists rd, a1, (set2 settled r c 1%N). split; [apply in_or_app; right; left; auto|].
  split; [exact P1|]. split; [apply set2_at|]. split; auto. split.
  - intros r' c' _ _. unfold set2, settled. destruct (_ && _); auto.
  - rewrite aticks_app, E1. cbn [obind aticks]. destruct (atick rd a1); auto.
Qed.

(** *** A key that sends *)
Lemma stroke_press : forall rds k D m a r c, (k < 4)%N -> r < 9 -> c < 8 -> D r c = false ->
  Pose k D settled m 0xA0 [] a -> (code_of k m r c < 0xA0)%N -> free_of k m D 0xA0 -> free_of k m D (code_of k m r c) ->
  length rds = 10 -> Forall (shows (set2 D r c true)) rds ->
  exists a', aticks rds a = Some a' /\ Pose k (set2 D r c true) settled m (code_of k m r c) [code_of k m r c] a' /\
    r_timer (a_rep a') = 525%N /\ out a' = out a.
Proof.
  intros rds k D m a r c Hk Hr Hc HD P LOW HF0 HF1 LEN HS.
  set (code := code_of k m r c) in *. set (L := fun z => z = code \/ z = 0xA0%N).
  assert (DF : forall x, free_of k m D x -> free_of k m (set2 D r c false) x).
  { intros x H r' c' Hr' Hc' E. apply H; auto. unfold set2 in E. destruct (_ && _); auto. discriminate E. }
  assert (HO : Forall (fun rd => others k m D r c L rd /\ reading rd r c = negb (D r c)) rds).
  { eapply Forall_impl; [|exact HS]. intros rd H. split; [apply (others_of _ _ _ _ _ _ _ _ true); auto|].
    rewrite H, set2_at, HD by auto. auto. }
  destruct (keep_ten rds k D m 0xA0%N [] a r c L) as (rd&a1&C1&IN&P1&CC&O1&CX&E); auto.
  { unfold L; auto. }
  rewrite app_nil_r in O1. rewrite Forall_forall in HO. destruct (HO rd IN) as [HO1 RD].
  destruct (accept_step k D C1 m 0xA0%N a1 rd r c Hk Hr Hc P1 RD CC) as [PA KS]. rewrite HD in PA, KS. cbn [negb] in PA, KS.
  fold code in KS. assert (O2 : out (accept r c true a1) = out a1) by reflexivity.
  set (a2 := accept r c true a1) in *. clearbody a2.
  assert (AP : apress code a2 = put_rep (repeat_reset_count (a_rep a2)) (put_last code (put_qk [code] a2))).
  { unfold apress. replace (0xA0 <? code)%N with false by lia. cbv zeta. cbn [a_rep put_qk].
    rewrite (ps_last _ _ _ _ _ _ _ PA), (ps_qk _ _ _ _ _ _ _ PA). replace (0xA0 =? code)%N with false by lia. reflexivity. }
  rewrite AP in KS. clear AP. set (b := put_rep _ _) in KS.
  assert (PB : Pose k (set2 D r c true) settled m code [code] b).
  { apply (pose_ext k (set2 D r c true) (set2 D r c true) (set2 C1 r c 10%N)); auto.
    destruct PA as [P2 P3 P4 P5 P6 P7 P8 P9 P10]. constructor; auto. }
  exists b. split.
  - rewrite E. destruct (pose_send _ _ _ _ _ _ _ P1) as (PS&_&_); [cbn; lia|constructor|].
    assert (SA : asend a1 = a1) by (unfold asend; rewrite (ps_qm _ _ _ _ _ _ _ P1), (ps_qk _ _ _ _ _ _ _ P1); auto).
    apply (pose_tick k D C1 m 0xA0%N [] a1 rd r c L b (set2 D r c true) settled m code [code]); auto; try (cbn; lia).
    + unfold L; auto.
    + rewrite SA. exact KS.
    + apply others_set; auto.
    + unfold L; auto.
  - split; auto. split; [|rewrite <- O1, <- O2; reflexivity].
    cbn [b a_rep put_rep repeat_reset_count r_timer]. rewrite (ps_auto _ _ _ _ _ _ _ PA). reflexivity.
Qed.

Definition pend (p : bool) (code : N) : list N := if p then [code] else [].

Lemma stroke_hold_tick : forall k D C m a r c rd p t, (k < 4)%N -> r < 9 -> c < 8 -> D r c = true ->
  (code_of k m r c < 0xA0)%N -> free_of k m (set2 D r c false) (code_of k m r c) ->
  Pose k D C m (code_of k m r c) (pend p (code_of k m r c)) a -> r_timer (a_rep a) = t -> shows D rd ->
  exists a', atick rd a = Some a' /\ Pose k D C m (code_of k m r c) (pend (next_p t) (code_of k m r c)) a' /\
    r_timer (a_rep a') = next_t t /\ out a' = out a ++ pend p (code_of k m r c).
Proof.
  intros k D C m a r c rd p t Hk Hr Hc HD LOW HF P HT HS. set (code := code_of k m r c) in *.
  assert (Q1 : length (pend p code) <= 1) by (destruct p; cbn; lia).
  assert (Q2 : Forall (fun x => x < 0xA0)%N (pend p code)) by (destruct p; repeat constructor; auto).
  destruct (pose_send _ _ _ _ _ _ _ P Q1 Q2) as (PS&RS&OS).
  destruct (repeat_tick_next (a_rep (asend a))) as (q&T1&T2&T3&T4). rewrite RS, HT in T1, T2.
  set (b := if next_p t then put_qk [code] (put_rep q (asend a)) else put_rep q (asend a)).
  assert (KS : key_step rd r c (asend a) = Some b).
  { unfold key_step, acode. cbv zeta. assert (RD : reading rd r c = true) by (rewrite HS; auto).
    rewrite RD, (ps_dn _ _ _ _ _ _ _ PS), HD by auto. cbn [Bool.eqb].
    rewrite (ps_cur _ _ _ _ _ _ _ PS), (amodes_map _ _ (ps_mod _ _ _ _ _ _ _ PS)). replace (k <? 4)%N with true by lia. cbn [obind].
    change (code_at k (map_of m) r c) with code. f_equal.
    unfold aheld. rewrite (ps_last _ _ _ _ _ _ _ PS), N.eqb_refl, RS, T1. unfold b. destruct (next_p t); auto.
    unfold apress. replace (0xA0 <? code)%N with false by lia. cbn [a_last a_qk put_rep put_qk].
    rewrite (ps_last _ _ _ _ _ _ _ PS), N.eqb_refl, (ps_qk _ _ _ _ _ _ _ PS). reflexivity. }
  assert (PB : Pose k D C m code (pend (next_p t) code) b).
  { assert (AU : r_state q = RAuto) by (rewrite T3; apply (ps_auto _ _ _ _ _ _ _ PS)).
    destruct PS as [P2 P3 P4 P5 P6 P7 P8 P9 P10]. unfold b. destruct (next_p t); constructor; auto. }
  assert (HO : others k m D r c (eq code) rd).
  { intros r' c' Hr' Hc' Hn. split; auto. intros HD' E. apply (HF r' c'); auto. rewrite set2_off; auto. }
  exists b. split.
  - apply (pose_tick k D C m code (pend p code) a rd r c (eq code) b D C m code (pend (next_p t) code)); auto.
  - split; auto. split; [unfold b; destruct (next_p t); exact T2|]. rewrite <- OS. unfold b. destruct (next_p t); reflexivity.
Qed.

Lemma stroke_hold : forall rds k D m a r c p t, (k < 4)%N -> r < 9 -> c < 8 -> D r c = true ->
  (code_of k m r c < 0xA0)%N -> free_of k m (set2 D r c false) (code_of k m r c) ->
  Pose k D settled m (code_of k m r c) (pend p (code_of k m r c)) a -> r_timer (a_rep a) = t -> Forall (shows D) rds ->
  exists a' p', aticks rds a = Some a' /\ Pose k D settled m (code_of k m r c) (pend p' (code_of k m r c)) a' /\
    out a' ++ pend p' (code_of k m r c) = out a ++ repeat (code_of k m r c) (emitted (S (length rds)) p t).
Proof.
  induction rds as [|rd rds IH]; intros k D m a r c p t Hk Hr Hc HD LOW HF P HT HS.
  - exists a, p. split; auto. split; auto. f_equal. destruct p; reflexivity.
  - inv HS. destruct (stroke_hold_tick k D settled m a r c rd p (r_timer (a_rep a))) as (b&E&PB&TB&OB); auto.
    destruct (IH k D m b r c (next_p (r_timer (a_rep a))) (next_t (r_timer (a_rep a)))) as (a'&p'&E'&P'&O'); auto.
    exists a', p'. cbn [aticks]. rewrite E. cbn [obind]. split; auto. split; auto. rewrite O', OB, <- app_assoc. f_equal.
    cbn [length]. change (emitted (S (S (length rds))) p (r_timer (a_rep a))) with
      ((if p then 1 else 0) + emitted (S (length rds)) (next_p (r_timer (a_rep a))) (next_t (r_timer (a_rep a)))).
    destruct p; reflexivity.
Qed.

Lemma stroke_release : forall rds k D m a r c p, (k < 4)%N -> r < 9 -> c < 8 -> D r c = true ->
  Pose k D settled m (code_of k m r c) (pend p (code_of k m r c)) a -> (code_of k m r c < 0xA0)%N ->
  free_of k m (set2 D r c false) 0xA0 -> free_of k m (set2 D r c false) (code_of k m r c) ->
  length rds = 10 -> Forall (shows (set2 D r c false)) rds ->
  exists a', aticks rds a = Some a' /\ Pose k (set2 D r c false) settled m 0xA0 [] a' /\
    out a' = out a ++ pend p (code_of k m r c).
Proof.
  intros rds k D m a r c p Hk Hr Hc HD P LOW HF0 HF1 LEN HS.
  set (code := code_of k m r c) in *. set (L := fun z => z = code \/ z = 0xA0%N).
  assert (Q1 : length (pend p code) <= 1) by (destruct p; cbn; lia).
  assert (Q2 : Forall (fun x => x < 0xA0)%N (pend p code)) by (destruct p; repeat constructor; auto).
  assert (HO : Forall (fun rd => others k m D r c L rd /\ reading rd r c = negb (D r c)) rds).
  { eapply Forall_impl; [|exact HS]. intros rd H. split; [apply (others_of _ _ _ _ _ _ _ _ false); auto|].
    rewrite H, set2_at, HD by auto. auto. }
  destruct (keep_ten rds k D m code (pend p code) a r c L) as (rd&a1&C1&IN&P1&CC&O1&CX&E); auto.
  { unfold L; auto. }
  rewrite Forall_forall in HO. destruct (HO rd IN) as [HO1 RD].
  destruct (accept_step k D C1 m code a1 rd r c Hk Hr Hc P1 RD CC) as [PA KS]. rewrite HD in PA, KS. cbn [negb] in PA, KS.
  fold code in KS. assert (O2 : out (accept r c false a1) = out a1) by reflexivity.
  set (a2 := accept r c false a1) in *. clearbody a2.
  assert (AP : arelease code a2 = put_last 0xA0 a2).
  { unfold arelease. replace (0xA0 <? code)%N with false by lia. rewrite (ps_last _ _ _ _ _ _ _ PA), N.eqb_refl. reflexivity. }
  rewrite AP in KS. clear AP. set (b := put_last _ _) in KS.
  assert (PB : Pose k (set2 D r c false) settled m 0xA0 [] b).
  { apply (pose_ext k (set2 D r c false) (set2 D r c false) (set2 C1 r c 10%N)); auto.
    destruct PA as [P2 P3 P4 P5 P6 P7 P8 P9 P10]. constructor; auto. }
  exists b. split.
  - rewrite E.
    assert (SA : asend a1 = a1) by (unfold asend; rewrite (ps_qm _ _ _ _ _ _ _ P1), (ps_qk _ _ _ _ _ _ _ P1); auto).
    apply (pose_tick k D C1 m code [] a1 rd r c L b (set2 D r c false) settled m 0xA0%N []); auto; try (cbn; lia).
    + unfold L; auto.
    + rewrite SA. exact KS.
    + apply others_set; auto.
    + unfold L; auto.
  - split; auto. rewrite <- O1, <- O2. reflexivity.
Qed.

Lemma set2_back : forall (D : nat -> nat -> bool) r c x y r' c', D r c = y -> set2 (set2 D r c x) r c y r' c' = D r' c'.
Proof.
  intros D r c x y r' c' H. unfold set2. destruct (Nat.eqb_spec r' r), (Nat.eqb_spec c' c); cbn [andb]; auto. congruence.
Qed.

Lemma stroke_all : forall press gap k D m a r c, (k < 4)%N -> r < 9 -> c < 8 -> D r c = false ->
  Pose k D settled m 0xA0 [] a -> (code_of k m r c < 0xA0)%N -> free_of k m D 0xA0 -> free_of k m D (code_of k m r c) ->
  Forall (shows (set2 D r c true)) press -> 10 <= length press -> Forall (shows D) gap -> length gap = 10 ->
  exists a', aticks (press ++ gap) a = Some a' /\ Pose k D settled m 0xA0 [] a' /\
    out a' = out a ++ repeat (code_of k m r c) (typed 10 (S (length press))).
Proof.
  intros press gap k D m a r c Hk Hr Hc HD P LOW HF0 HF1 HP LP HG LG.
  set (code := code_of k m r c) in *. set (D1 := set2 D r c true) in *.
  assert (BK : forall r' c', set2 D1 r c false r' c' = D r' c') by (intros; apply set2_back; auto).
  assert (FB : forall x, free_of k m D x -> free_of k m (set2 D1 r c false) x).
  { intros x H r' c' Hr' Hc' E. rewrite BK in E. apply H; auto. }
  assert (D1T : D1 r c = true) by apply set2_at.
  rewrite <- (firstn_skipn 10 press) in HP. apply Forall_app in HP. destruct HP as [HP1 HP2].
  assert (L1 : length (firstn 10 press) = 10) by (rewrite firstn_length; lia).
  assert (L2 : length (skipn 10 press) = length press - 10) by apply skipn_length.
  destruct (stroke_press (firstn 10 press) k D m a r c) as (a1&E1&P1&T1&O1); auto.
  destruct (stroke_hold (skipn 10 press) k D1 m a1 r c true 525%N) as (a2&p&E2&P2&O2); auto.
  destruct (stroke_release gap k D1 m a2 r c p) as (a3&E3&P3&O3); auto.
  { eapply Forall_impl; [|exact HG]. intros rd H r' c' Hr' Hc'. rewrite BK. auto. }
  exists a3. split.
  { rewrite <- (firstn_skipn 10 press), <- app_assoc, !aticks_app, E1. cbn [obind]. rewrite aticks_app, E2. exact E3. }
  split; [apply (pose_ext k (set2 D1 r c false) D settled settled); auto|].
  fold code in O2, O3. rewrite O3, O2, O1. do 2 f_equal. rewrite L2, emitted_on by lia.
  change (N.to_nat 525) with 525. unfold typed. replace (S (length press) <=? 10) with false by lia.
  cbn [Nat.min]. clear - LP. generalize dependent (length press). intros n LP.
  destruct (Nat.leb_spec (S (n - 10)) 525); destruct (Nat.leb_spec (S n) (10 + 525)); try lia.
Qed.

(** *** Modifier keys *)
Lemma mod_codes : forall code x, decode code = x -> x = AShift \/ x = ACtrl \/ x = ACaps -> (0xA0 < code)%N.
Proof.
  intros code x H HX. destruct (N.ltb_spec 0xA0 code); auto. exfalso.
  destruct (N.eq_dec code 0xA0).
  - subst code. change (decode 0xA0) with ANothing in H. subst x. destruct HX as [HX|[HX|HX]]; discriminate HX.
  - rewrite decode_high in H by lia. subst x. destruct HX as [HX|[HX|HX]]; discriminate HX.
Qed.
Lemma mod_press_form : forall x m m1, mod_press x m = Some m1 -> x = AShift \/ x = ACtrl \/ x = ACaps.
Proof. intros x m m1 H. destruct x; cbn in H; auto; discriminate H. Qed.
Lemma mod_release_form : forall x m m1, mod_release x m = Some m1 -> x = AShift \/ x = ACtrl \/ x = ACaps.
Proof. intros x m m1 H. destruct x; cbn in H; auto; discriminate H. Qed.

Lemma drive_outs : forall g l lv, Forall (fun e => exists d v, e = EvOut d v) (snd (drive g l lv)).
Proof.
  intros g. induction l as [|p l IH]; intros lv; cbn [drive]; [constructor|].
  specialize (IH (set_at lv p (g (lv p)))). destruct (drive g l (set_at lv p (g (lv p)))). cbn [snd] in *. constructor; eauto.
Qed.
Lemma out_led : forall f v a, f = V_SET_HI \/ f = V_SET_LO -> out (aact f v a) = out a.
Proof.
  intros f v a H. unfold aact.
  assert (X : Forall (fun e => exists d v, e = EvOut d v) (snd (spec_action f (own (wiring (a_cur a)) v) (a_lev a)))).
  { destruct H as [-> | ->]; apply drive_outs. }
  destruct (spec_action _ _ _) as [lv ev]. cbn [snd] in X. unfold out. cbn [a_log put_log put_lev].
  rewrite rev_app_distr, rev_involutive, vis_app. replace (vis ev) with (@nil N); [apply app_nil_r|].
  induction X as [|e l [d [w ->]] HF IH]; [reflexivity|exact IH].
Qed.
Lemma out_shift : forall x a, out (aset_shift x a) = out a.
Proof. intros x a. unfold aset_shift. cbv zeta. apply (out_led _ VSHIFT_LED). destruct (N.testbit x 1); auto. Qed.
Lemma out_caps : forall a, out (atoggle_caps a) = out a.
Proof. intros a. unfold atoggle_caps. cbv zeta. apply (out_led _ VCAPS_LED). destruct (_ =? 0)%N; auto. Qed.

Lemma press_pose : forall k D C m m1 a code, Pose k D C m 0xA0 [] a -> mod_press (decode code) m = Some m1 ->
  Pose k D C m1 0xA0 [] (apress code a) /\ out (apress code a) = out a.
Proof.
  intros k D C m m1 a code [P1 P2 P3 P4 P5 P6 P7 P8 P9] H. pose proof (mod_press_form _ _ _ H) as HX.
  pose proof (mod_codes code _ eq_refl HX) as HG. unfold apress. replace (0xA0 <? code)%N with true by lia.
  split; [|unfold aaction_on; destruct HX as [HX|[HX|HX]]; rewrite HX; [apply out_shift|reflexivity|apply out_caps]]. destruct (aon_dn code a) as [ED EC].
  assert (NM : forall n, decode code <> AMapsel n) by (intros n E; rewrite E in HX; destruct HX as [HX|[HX|HX]]; discriminate HX).
  assert (NF : forall n, decode code <> AFn n) by (intros n E; rewrite E in HX; destruct HX as [HX|[HX|HX]]; discriminate HX).
  assert (NR : decode code <> ARepeat) by (intros E; rewrite E in HX; destruct HX as [HX|[HX|HX]]; discriminate HX).
  assert (NA : decode code <> AAutorepeat) by (intros E; rewrite E in HX; destruct HX as [HX|[HX|HX]]; discriminate HX).
  constructor.
  - rewrite on_cur; auto.
  - subst m. destruct HX as [HX|[HX|HX]]; rewrite HX in H; cbn [mod_press] in H; inv H; unfold aaction_on; rewrite HX.
    + unfold amodes, aset_shift. cbn [a_mod put_mod m_ctrl m_shift m_caps]. rewrite !aact_mod. reflexivity.
    + reflexivity.
    + unfold amodes, atoggle_caps. cbn [a_mod put_mod m_ctrl m_shift m_caps]. rewrite !aact_mod. f_equal.
      cbn [caps_m]. assert (X : m_caps (a_mod a) = 0%N \/ m_caps (a_mod a) = 1%N) by lia. destruct X as [-> | ->]; reflexivity.
  - rewrite on_last; auto.
  - rewrite on_qm; auto.
  - rewrite on_qk; auto.
  - rewrite ED; auto.
  - rewrite EC; auto.
  - rewrite on_repeat; auto.
  - destruct HX as [HX|[HX|HX]]; unfold aaction_on; rewrite HX; auto.
    + unfold aset_shift. cbn [a_mod put_mod m_caps]. rewrite aact_mod. auto.
    + unfold atoggle_caps. cbn [a_mod put_mod m_caps].
      assert (X : m_caps (a_mod a) = 0%N \/ m_caps (a_mod a) = 1%N) by lia. destruct X as [-> | ->]; reflexivity.
Qed.

Lemma release_pose : forall k D C m m1 a code, Pose k D C m 0xA0 [] a -> mod_release (decode code) m = Some m1 ->
  Pose k D C m1 0xA0 [] (arelease code a) /\ out (arelease code a) = out a.
Proof.
  intros k D C m m1 a code [P1 P2 P3 P4 P5 P6 P7 P8 P9] H. pose proof (mod_release_form _ _ _ H) as HX.
  pose proof (mod_codes code _ eq_refl HX) as HG. unfold arelease. replace (0xA0 <? code)%N with true by lia.
  split; [|unfold aaction_off; destruct HX as [HX|[HX|HX]]; rewrite HX; [apply out_shift|reflexivity|reflexivity]]. destruct (aoff_dn code a) as [ED EC].
  assert (NM : forall n, decode code <> AMapsel n) by (intros n E; rewrite E in HX; destruct HX as [HX|[HX|HX]]; discriminate HX).
  assert (NR : decode code <> ARepeat) by (intros E; rewrite E in HX; destruct HX as [HX|[HX|HX]]; discriminate HX).
  assert (NA : decode code <> AAutorepeat) by (intros E; rewrite E in HX; destruct HX as [HX|[HX|HX]]; discriminate HX).
  constructor.
  - rewrite off_cur; auto.
  - subst m. destruct HX as [HX|[HX|HX]]; rewrite HX in H; cbn [mod_release] in H; inv H; unfold aaction_off; rewrite HX.
    + unfold amodes, aset_shift. cbn [a_mod put_mod m_ctrl m_shift m_caps]. rewrite !aact_mod. reflexivity.
    + reflexivity.
    + reflexivity.
  - rewrite off_last; auto.
  - rewrite off_qm; auto.
  - rewrite off_qk; auto.
  - rewrite ED; auto.
  - rewrite EC; auto.
  - rewrite off_repeat; auto.
  - destruct HX as [HX|[HX|HX]]; unfold aaction_off; rewrite HX; auto.
    unfold aset_shift. cbn [a_mod put_mod m_caps]. rewrite aact_mod. auto.
Qed.

Lemma mod_all : forall rds k D m m1 a r c, (k < 4)%N -> r < 9 -> c < 8 ->
  Pose k D settled m 0xA0 [] a ->
  (if D r c then mod_release else mod_press) (decode (code_of k m r c)) m = Some m1 ->
  free_of k m (set2 D r c false) 0xA0 -> free_of k m1 (set2 D r c false) 0xA0 ->
  length rds = 10 -> Forall (shows (set2 D r c (negb (D r c)))) rds ->
  exists a', aticks rds a = Some a' /\ Pose k (set2 D r c (negb (D r c))) settled m1 0xA0 [] a' /\ out a' = out a.
Proof.
  intros rds k D m m1 a r c Hk Hr Hc P HM HF0 HF1 LEN HS.
  set (code := code_of k m r c) in *. set (L := fun z => z = 0xA0%N \/ z = 0xA0%N).
  assert (HO : Forall (fun rd => others k m D r c L rd /\ reading rd r c = negb (D r c)) rds).
  { eapply Forall_impl; [|exact HS]. intros rd H. split; [apply (others_of _ _ _ _ _ _ _ _ (negb (D r c))); auto|].
    rewrite H, set2_at by auto. auto. }
  assert (HO' : Forall (fun rd => others k m1 D r c L rd) rds).
  { eapply Forall_impl; [|exact HS]. intros rd H. apply (others_of _ _ _ _ _ _ _ _ (negb (D r c))); auto. }
  destruct (keep_ten rds k D m 0xA0%N [] a r c L) as (rd&a1&C1&IN&P1&CC&O1&CX&E); auto.
  { unfold L; auto. }
  rewrite app_nil_r in O1. rewrite Forall_forall in HO, HO'. destruct (HO rd IN) as [HO1 RD].
  destruct (accept_step k D C1 m 0xA0%N a1 rd r c Hk Hr Hc P1 RD CC) as [PA KS]. fold code in KS.
  assert (O2 : out (accept r c (negb (D r c)) a1) = out a1) by reflexivity.
  set (a2 := accept r c (negb (D r c)) a1) in *. clearbody a2.
  set (b := (if negb (D r c) then apress else arelease) code a2) in *.
  assert (PB : Pose k (set2 D r c (negb (D r c))) settled m1 0xA0 [] b /\ out b = out a2).
  { assert (X : Pose k (set2 D r c (negb (D r c))) (set2 C1 r c 10%N) m1 0xA0 [] b /\ out b = out a2).
    { unfold b. destruct (D r c); cbn [negb] in *; [apply (release_pose _ _ _ m)|apply (press_pose _ _ _ m)]; auto. }
    destruct X as [X1 X2]. split; auto. apply (pose_ext k (set2 D r c (negb (D r c))) (set2 D r c (negb (D r c))) (set2 C1 r c 10%N)); auto. }
  destruct PB as [PB OB]. exists b. split; [|split; [auto|congruence]].
  rewrite E.
  assert (SA : asend a1 = a1) by (unfold asend; rewrite (ps_qm _ _ _ _ _ _ _ P1), (ps_qk _ _ _ _ _ _ _ P1); auto).
  apply (pose_tick k D C1 m 0xA0%N [] a1 rd r c L b (set2 D r c (negb (D r c))) settled m1 0xA0%N []); auto; try (cbn; lia).
  + unfold L; auto.
  + rewrite SA. exact KS.
  + apply others_set; auto.
  + unfold L; auto.
Qed.

(** ** C72 *)
Lemma session_sim : forall k D m rds o D' m', (k < 4)%N -> session k D m rds o D' m' ->
  forall a, Pose k D settled m 0xA0 [] a ->
  exists a', aticks rds a = Some a' /\ Pose k D' settled m' 0xA0 [] a' /\ out a' = out a ++ o.
Proof.
  intros k D m rds o D' m' Hk S. induction S; intros a P.
  - exists a. rewrite app_nil_r. auto.
  - destruct (IHS a P) as (a'&E&P'&O). exists a'. cbn [aticks]. rewrite (wait_tick k D settled m) by auto. cbn [obind]. auto.
  - destruct (stroke_all press gap k D m a r c) as (a1&E1&P1&O1); auto.
    destruct (IHS a1 P1) as (a'&E&P'&O). exists a'. rewrite app_assoc, aticks_app, E1. cbn [obind]. split; auto. split; auto.
    rewrite O, O1, app_assoc. reflexivity.
  - destruct (mod_all press k D m m1 a r c) as (a1&E1&P1&O1); auto.
    + rewrite H1. auto.
    + intros r' c' Hr Hc E. apply H3; auto. rewrite <- E. symmetry. unfold set2. destruct (Nat.eqb_spec r' r), (Nat.eqb_spec c' c); cbn [andb]; auto. congruence.
    + intros r' c' Hr Hc E. apply H4; auto. rewrite <- E. symmetry. unfold set2. destruct (Nat.eqb_spec r' r), (Nat.eqb_spec c' c); cbn [andb]; auto. congruence.
    + rewrite H1. auto.
    + rewrite H1 in P1. destruct (IHS a1 P1) as (a'&E&P'&O). exists a'. rewrite aticks_app, E1. cbn [obind]. rewrite <- O1. auto.
  - destruct (mod_all gap k D m m1 a r c) as (a1&E1&P1&O1); auto.
    + rewrite H1. auto.
    + rewrite H1. auto.
    + rewrite H1 in P1. destruct (IHS a1 P1) as (a'&E&P'&O). exists a'. rewrite aticks_app, E1. cbn [obind]. rewrite <- O1. auto.
Qed.

Lemma caps_lt : forall pre s, run pre = Ok s -> (m_caps (k_mod s) < 2)%N.
Proof.
  intros pre s H. destruct (reach _ _ H) as [a [A RL]]. rewrite (rl_mod _ _ RL).
  destruct (led_inv _ _ A) as (_&X&_). exact X.
Qed.

Lemma rest_pose : forall pre s a, run pre = Ok s -> Rel a s -> at_rest s ->
  Pose (k_cur s) (down s) settled (modes_of s) 0xA0 [] a.
Proof.
  intros pre s a H RL (R1&R2&R3&R4&R5). constructor.
  - symmetry. apply (rl_cur _ _ RL).
  - unfold amodes, modes_of, ctrl_on, shift_on, caps_on. rewrite (rl_mod _ _ RL). reflexivity.
  - rewrite <- (rl_last _ _ RL). auto.
  - rewrite <- (msg_queue_ok _ _ RL). auto.
  - rewrite <- (key_queue_ok _ _ RL). auto.
  - intros r c Hr Hc. symmetry. apply (down_ok _ _ _ _ RL); lia.
  - intros r c Hr Hc. destruct (count_ok _ _ r c RL) as [C _]; auto; try lia. rewrite <- C, R5 by auto. reflexivity.
  - rewrite <- (rl_rep _ _ RL). auto.
  - rewrite <- (rl_mod _ _ RL). apply (caps_lt _ _ H).
Qed.

Lemma out_new : forall a a' o, grows a a' -> out a' = out a ++ o -> Forall (fun x => x < 0xA0)%N o ->
  exists l, rev (a_log a') = rev (a_log a) ++ l /\ sends l = o /\ Forall instant l.
Proof.
  intros a a' o [l G] O HF. exists (rev l). rewrite G, rev_app_distr. split; auto.
  unfold out in O. rewrite G, rev_app_distr, vis_app in O. apply app_inv_head in O. rewrite <- O. apply vis_clean. rewrite O. exact HF.
Qed.
Lemma session_codes : forall k D m rds o D' m', session k D m rds o D' m' -> Forall (fun x => x < 0xA0)%N o.
Proof.
  intros k D m rds o D' m' S. induction S; auto. apply Forall_app. split; auto. apply Forall_forall. intros x IN. apply repeat_spec in IN. subst x. auto.
Qed.

Lemma session_run : forall pre s rds o D' m', run pre = Ok s -> (k_cur s < 4)%N -> at_rest s ->
  session (k_cur s) (down s) (modes_of s) rds o D' m' ->
  exists s' l, ticks rds s = Ok s' /\ events s' = events s ++ l /\ sends l = o /\ Forall instant l /\
    at_rest s' /\ k_cur s' = k_cur s /\ modes_of s' = m' /\
    forall r c, r < 9 -> c < 8 -> down s' r c = D' r c.
Proof.
  intros pre s rds o D' m' H Hk HR S. destruct (reach _ _ H) as [a [A RL]].
  pose proof (rest_pose _ _ _ H RL HR) as P.
  destruct (session_sim _ _ _ _ _ _ _ Hk S a P) as (a'&E&P'&O).
  pose proof (ticks_sim rds _ _ RL) as X. unfold sim in X. rewrite E in X. destruct X as [s' [E' RL']].
  destruct P' as [P1 P2 P3 P4 P5 P6 P7 P8 P9].
  destruct (out_new _ _ _ (ticks_grow _ _ _ E) O (session_codes _ _ _ _ _ _ _ S)) as (l&EL&SL&IL).
  exists s', l. split; auto. split; [rewrite (events_ok _ _ RL), (events_ok _ _ RL'); exact EL|]. split; auto. split; auto. split.
  { split; [rewrite (rl_last _ _ RL'); auto|]. split; [rewrite (key_queue_ok _ _ RL'); auto|].
    split; [rewrite (msg_queue_ok _ _ RL'); auto|]. split; [rewrite (rl_rep _ _ RL'); auto|].
    intros r c Hr Hc. destruct (count_ok _ _ r c RL') as [C _]; auto; try lia. rewrite P7 in C by auto. unfold settled in C. lia. }
  split; [rewrite (rl_cur _ _ RL'); auto|].
  split; [rewrite <- P2; unfold amodes, modes_of, ctrl_on, shift_on, caps_on; rewrite (rl_mod _ _ RL'); reflexivity|].
  intros r c Hr Hc. rewrite (down_ok _ _ _ _ RL') by lia. auto.
Qed.

(** Typing from rest: the host receives exactly the codes of the keystrokes, in
    order, each with its repeats, and the keyboard is at rest again. *)
Theorem C72_session : forall pre s rds o D' m', run pre = Ok s -> (k_cur s < 4)%N -> at_rest s ->
  session (k_cur s) (down s) (modes_of s) rds o D' m' ->
  exists s', ticks rds s = Ok s' /\ sent s' = sent s ++ o /\
    at_rest s' /\ k_cur s' = k_cur s /\ modes_of s' = m' /\
    forall r c, r < 9 -> c < 8 -> down s' r c = D' r c.
Proof.
  intros pre s rds o D' m' H Hk HR S. destruct (session_run _ _ _ _ _ _ H Hk HR S) as (s'&l&E&EV&SL&_&X). exists s'. split; auto.
  split; [unfold sent; rewrite EV, sends_app, SL; reflexivity|exact X].
Qed.
Print Assumptions C72_session.

Lemma shows_check : forall l D n,
  forallb (fun x => Bool.eqb (reading (matrix l) (fst x) (snd x)) (D (fst x) (snd x))) (grid 0 9) = true ->
  Forall (shows D) (hold n l).
Proof.
  intros l D n H. apply Forall_forall. intros rd IN. apply repeat_spec in IN. subst rd. intros r c Hr Hc.
  rewrite forallb_forall in H. apply eqb_prop. apply (H (r, c)). unfold grid. apply in_prod_iff. rewrite !in_seq. lia.
Qed.
Lemma free_check : forall k m D x,
  forallb (fun p => negb (D (fst p) (snd p)) || negb (code_of k m (fst p) (snd p) =? x)%N) (grid 0 9) = true ->
  free_of k m D x.
Proof.
  intros k m D x H r c Hr Hc HD E. rewrite forallb_forall in H.
  assert (I : In (r, c) (grid 0 9)) by (unfold grid; apply in_prod_iff; rewrite !in_seq; lia).
  specialize (H (r, c) I). cbn [fst snd] in H. rewrite HD, E, N.eqb_refl in H. discriminate H.
Qed.

(** "p", then SHIFT with "p" held until it repeats, then "p" again. *)
Example C72_example :
  let none := fun _ _ : nat => false in let p := set2 none 1 1 true in
  let sh := set2 none 0 1 true in let shp := set2 sh 1 1 true in
  let rds := hold 12 [(1, 1)] ++ hold 10 [] ++ hold 10 [(0, 1)] ++ hold 600 [(0, 1); (1, 1)] ++ hold 10 [(0, 1)] ++
             hold 10 [] ++ hold 3 [] ++ hold 10 [(1, 1)] ++ hold 10 [] in
  obs (fun s => (k_cur s, (k_last s, key_queue s, msg_queue s), modes_of s)) (run (hold 2 [])) =
    Some (0, (0xA0, [], []), mkModes false false false)%N /\
  obs (fun s => (r_state (k_rep s), forallb (fun x => (count s (fst x) (snd x) =? 10) && negb (down s (fst x) (snd x))) (grid 0 9)))
    (run (hold 2 [])) = Some (RAuto, true) /\
  obs sent (run (hold 2 [] ++ rds)) = Some [112; 80; 80; 112]%N /\
  session 0 none (mkModes false false false) rds [112; 80; 80; 112]%N (set2 sh 0 1 false) (mkModes false false false).
Proof.
  cbv zeta. split; [vm_compute; reflexivity|]. split; [vm_compute; reflexivity|]. split; [vm_compute; reflexivity|].
  apply (s_stroke 0 (fun _ _ => false) (mkModes false false false) 1 1 (hold 12 [(1, 1)]) (hold 10 []) _ [80; 80; 112]%N);
    [lia|lia|reflexivity|reflexivity|apply free_check; vm_compute; reflexivity|apply free_check; vm_compute; reflexivity|
     apply shows_check; vm_compute; reflexivity|apply Nat.leb_le; reflexivity|apply shows_check; vm_compute; reflexivity|reflexivity|].
  apply (s_press 0 _ _ 0 1 (mkModes false true false) (hold 10 [(0, 1)]));
    [lia|lia|reflexivity|reflexivity|apply free_check; vm_compute; reflexivity|apply free_check; vm_compute; reflexivity|
     apply shows_check; vm_compute; reflexivity|reflexivity|].
  apply (s_stroke 0 _ (mkModes false true false) 1 1 (hold 600 [(0, 1); (1, 1)]) (hold 10 [(0, 1)]) _ [112]%N);
    [lia|lia|reflexivity|reflexivity|apply free_check; vm_compute; reflexivity|apply free_check; vm_compute; reflexivity|
     apply shows_check; vm_compute; reflexivity|apply Nat.leb_le; vm_compute; reflexivity|apply shows_check; vm_compute; reflexivity|reflexivity|].
  apply (s_release 0 _ _ 0 1 (mkModes false false false) (hold 10 []));
    [lia|lia|reflexivity|reflexivity|apply free_check; vm_compute; reflexivity|apply free_check; vm_compute; reflexivity|
     apply shows_check; vm_compute; reflexivity|reflexivity|].
  do 3 (apply s_wait; [assert (X := shows_check [] (set2 (set2 (fun _ _ : nat => false) 0 1 true) 0 1 false) 1 ltac:(vm_compute; reflexivity)); inv X; auto|apply free_check; vm_compute; reflexivity|]).
  change (hold 10 [(1, 1)] ++ hold 10 []) with (hold 10 [(1, 1)] ++ hold 10 [] ++ []).
  apply (s_stroke 0 _ (mkModes false false false) 1 1 (hold 10 [(1, 1)]) (hold 10 []) _ []%N);
    [lia|lia|reflexivity|reflexivity|apply free_check; vm_compute; reflexivity|apply free_check; vm_compute; reflexivity|
     apply shows_check; vm_compute; reflexivity|apply Nat.leb_le; reflexivity|apply shows_check; vm_compute; reflexivity|reflexivity|].
  apply s_done.
Qed.
