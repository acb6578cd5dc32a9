(** Typing with bouncing contacts: C78, and recovery from any input: C79. *)
From Coq Require Import List NArith ZArith Arith Bool Lia.
From Coq Require Import ZifyBool ZifyNat ZifyN.
From Verif Require Import Base Lib Buffer BufferSpec BufferProofs Repeat Devices DevSpec DevProofs
     Modifiers Hook KeymapData Asdf KeySpec KeyRef Obs Frames PropModState PropQueues PropHold PropLeds PropTyping.
Import ListNotations.

(** ** Specification *)

(** How often a contact is read as [b]. *)
Definition times (b : bool) (l : list bool) : nat := length (filter (Bool.eqb b) l).
(** A contact that goes to [b], bouncing: at least ten readings of the new
    state, at most nine of the old one, in any order. *)
Definition settles (b : bool) (l : list bool) : Prop := 10 <= times b l /\ times (negb b) l <= 9.
(** The readings of a key (r, c) whose contact is [l], the other keys as in [D]. *)
Definition readings (D : nat -> nat -> bool) (r c : nat) : list bool -> list (nat -> N) -> Prop :=
  Forall2 (fun b rd => shows (set2 D r c b) rd).

(** The keys of [D] carry actions (modifiers, switches). *)
Definition actions_only (k : N) (m : modes) (D : nat -> nat -> bool) : Prop :=
  forall r c, r < 9 -> c < 8 -> D r c = true -> (0xA0 < code_of k m r c)%N.

(** As [session] of PropTyping.v, with bouncing contacts and keystrokes shorter
    than the autorepeat delay.  [x]: the code that would repeat, 0xA0 for none. *)
Inductive bouncing (k : N) : N -> (nat -> nat -> bool) -> modes -> list (nat -> N) -> list N ->
    N -> (nat -> nat -> bool) -> modes -> Prop :=
| b_done : forall x D m, bouncing k x D m [] [] x D m
| b_wait : forall x D m rd rds out x' D' m', shows D rd -> actions_only k m D ->
    bouncing k x D m rds out x' D' m' -> bouncing k x D m (rd :: rds) out x' D' m'
| b_stroke : forall x D m r c bs1 bs2 press release rds out x' D' m', r < 9 -> c < 8 -> D r c = false ->
    (code_of k m r c < 0xA0)%N -> code_of k m r c <> x -> actions_only k m D ->
    readings D r c bs1 press -> settles true bs1 -> readings D r c bs2 release -> settles false bs2 ->
    times true (bs1 ++ bs2) <= 525 ->
    bouncing k 0xA0 D m rds out x' D' m' ->
    bouncing k x D m (press ++ release ++ rds) (code_of k m r c :: out) x' D' m'
| b_press : forall x D m r c m1 bs press rds out x' D' m', r < 9 -> c < 8 -> D r c = false ->
    mod_press (decode (code_of k m r c)) m = Some m1 ->
    actions_only k m D -> actions_only k m1 (set2 D r c true) ->
    readings D r c bs press -> settles true bs ->
    bouncing k x (set2 D r c true) m1 rds out x' D' m' ->
    bouncing k x D m (press ++ rds) out x' D' m'
| b_release : forall x D m r c m1 bs release rds out x' D' m', r < 9 -> c < 8 -> D r c = true ->
    mod_release (decode (code_of k m r c)) m = Some m1 ->
    actions_only k m D -> actions_only k m1 (set2 D r c false) ->
    readings D r c bs release -> settles false bs ->
    bouncing k x (set2 D r c false) m1 rds out x' D' m' ->
    bouncing k x D m (release ++ rds) out x' D' m'.

(** Nothing queued, autorepeat on, [x] the code that would repeat.  Contacts may
    be half way to a change. *)
Definition calm (x : N) (s : kb) : Prop :=
  k_last s = x /\ key_queue s = [] /\ msg_queue s = [] /\ r_state (k_rep s) = RAuto.

(** ** Proof *)
Lemma times_app : forall b l1 l2, times b (l1 ++ l2) = times b l1 + times b l2.
Proof. intros. unfold times. rewrite filter_app, app_length. reflexivity. Qed.
Lemma times_cons : forall b x l, times b (x :: l) = (if Bool.eqb b x then 1 else 0) + times b l.
Proof. intros. unfold times. cbn [filter]. destruct (Bool.eqb b x); reflexivity. Qed.
Lemma times_split : forall b n l, 1 <= n -> n <= times b l -> exists u v, l = u ++ b :: v /\ times b u = n - 1.
Proof.
  intros b n l. revert n. induction l as [|x l IH]; intros n H1 H2; [cbn in H2; lia|].
  rewrite times_cons in H2. destruct (Bool.eqb b x) eqn:E.
  - apply eqb_prop in E. subst x. destruct (Nat.eq_dec n 1) as [->|Hn].
    + exists [], l. split; reflexivity.
    + destruct (IH (n - 1)) as (u&v&->&U); try lia. exists (b :: u), v. split; [reflexivity|]. rewrite times_cons, eqb_reflx, U. lia.
  - destruct (IH n) as (u&v&->&U); try lia. exists (x :: u), v. split; [reflexivity|]. rewrite times_cons, E, U. lia.
Qed.
Lemma readings_app : forall D r c l1 l2 rds, readings D r c (l1 ++ l2) rds ->
  exists rds1 rds2, rds = rds1 ++ rds2 /\ readings D r c l1 rds1 /\ readings D r c l2 rds2.
Proof. intros D r c l1 l2 rds H. apply Forall2_app_inv_l in H. destruct H as (a&b&A&B&E). exists a, b. auto. Qed.

(** Held keys with actions never repeat. *)
Definition low (z : N) : Prop := (z <= 0xA0)%N.
Lemma others_low : forall k m D r c b rd, shows (set2 D r c b) rd -> actions_only k m (set2 D r c false) -> others k m D r c low rd.
Proof.
  intros k m D r c b rd HS HA r' c' Hr Hc Hn. split; [rewrite HS, set2_off by auto; reflexivity|].
  intros HD HL. unfold low in HL. specialize (HA r' c' Hr Hc). rewrite set2_off in HA by auto. specialize (HA HD). lia.
Qed.

Lemma agree_tick : forall k D C m last q a rd r c, (k < 4)%N -> r < 9 -> c < 8 ->
  Pose k D C m last q a -> length q <= 1 -> Forall (fun x => x < 0xA0)%N q ->
  others k m D r c low rd -> low last -> reading rd r c = D r c -> (D r c = true -> code_of k m r c <> last) ->
  exists a', atick rd a = Some a' /\ Pose k D C m last [] a' /\ out a' = out a ++ q.
Proof.
  intros k D C m last q a rd r c Hk Hr Hc P Hl Hq HO HL RD HD.
  destruct (pose_send _ _ _ _ _ _ _ P Hl Hq) as (PS&RS&OS). exists (asend a). split; [|auto].
  apply (pose_tick k D C m last q a rd r c low (asend a) D C m last []); auto.
  unfold key_step, acode. cbv zeta. rewrite (ps_dn _ _ _ _ _ _ _ PS), RD, eqb_reflx by auto.
  destruct (D r c) eqn:E; auto. rewrite (ps_cur _ _ _ _ _ _ _ PS), (amodes_map _ _ (ps_mod _ _ _ _ _ _ _ PS)).
  replace (k <? 4)%N with true by lia. cbn [obind]. unfold aheld. rewrite (ps_last _ _ _ _ _ _ _ PS). fold (code_of k m r c).
  destruct (N.eqb_spec (code_of k m r c) last); auto. exfalso. apply HD; auto.
Qed.

(** The queue has been sent if there was a tick. *)
Definition flushed {A} (l : list A) (q : list N) : list N := match l with [] => q | _ => [] end.

(** A contact that bounces without being accepted. *)
Lemma idle_phase : forall bs rds k D C m last q a r c, (k < 4)%N -> r < 9 -> c < 8 ->
  Pose k D C m last q a -> length q <= 1 -> Forall (fun x => x < 0xA0)%N q -> low last ->
  actions_only k m (set2 D r c false) -> (D r c = true -> code_of k m r c <> last) ->
  readings D r c bs rds -> (N.of_nat (times (negb (D r c)) bs) < C r c)%N ->
  exists a', aticks rds a = Some a' /\ Pose k D (set2 C r c (C r c - N.of_nat (times (negb (D r c)) bs))%N) m last (flushed bs q) a' /\
    out a' ++ flushed bs q = out a ++ q.
Proof.
  induction bs as [|b bs IH]; intros rds k D C m last q a r c Hk Hr Hc P Hl Hq HL HA HD HR HC.
  - inv HR. exists a. split; [reflexivity|]. split; auto. apply (pose_ext k D D C); auto. intros r' c' _ _.
    unfold set2. destruct (Nat.eqb_spec r' r), (Nat.eqb_spec c' c); cbn [andb]; auto. subst. cbn. lia.
  - inversion HR as [|? rd ? rds' H1 H2]; subst. assert (HO := others_low _ _ _ _ _ _ _ H1 HA). rewrite times_cons in HC.
    assert (RD : reading rd r c = b) by (rewrite H1, set2_at by auto; reflexivity).
    cbn [flushed aticks].
    destruct (Bool.eqb (negb (D r c)) b) eqn:E.
    + apply eqb_prop in E.
      destruct (count_tick k D C m last q a rd r c low) as (a1&E1&P1&O1); auto; [congruence|lia|].
      destruct (IH rds' k D (set2 C r c (C r c - 1)%N) m last [] a1 r c) as (a2&E2&P2&O2); auto.
      { rewrite set2_at. lia. }
      exists a2. rewrite app_nil_r, E1. cbn [obind]. split; [exact E2|]. rewrite app_nil_r in O2.
      assert (FL : flushed bs [] = []) by (destruct bs; reflexivity). rewrite FL in *. rewrite app_nil_r in O2. split; [|congruence].
      apply (pose_ext _ _ _ _ _ _ _ _ _ P2); auto. intros r' c' _ _. rewrite times_cons, E, eqb_reflx. unfold set2. rewrite !Nat.eqb_refl. cbn [andb].
      destruct (Nat.eqb_spec r' r), (Nat.eqb_spec c' c); cbn [andb]; auto. lia.
    + assert (EB : b = D r c) by (destruct b, (D r c); cbn in E; congruence).
      destruct (agree_tick k D C m last q a rd r c) as (a1&E1&P1&O1); auto; [congruence|].
      destruct (IH rds' k D C m last [] a1 r c) as (a2&E2&P2&O2); auto.
      exists a2. rewrite app_nil_r, E1. cbn [obind]. split; [exact E2|]. rewrite app_nil_r in O2.
      assert (FL : flushed bs [] = []) by (destruct bs; reflexivity). rewrite FL in *. rewrite app_nil_r in O2. split; [|congruence].
      apply (pose_ext _ _ _ _ _ _ _ _ _ P2); auto. intros r' c' _ _. rewrite times_cons, E. f_equal.
Qed.

(** A character key that is down and bounces, before the repeat is due. *)
Lemma down_phase : forall bs rds k D C m q a r c, (k < 4)%N -> r < 9 -> c < 8 -> D r c = true ->
  (code_of k m r c < 0xA0)%N -> (q = [] \/ q = [code_of k m r c]) ->
  Pose k D C m (code_of k m r c) q a -> actions_only k m (set2 D r c false) ->
  readings D r c bs rds -> (N.of_nat (times false bs) < C r c)%N -> (N.of_nat (times true bs) < r_timer (a_rep a))%N ->
  exists a', aticks rds a = Some a' /\ Pose k D (set2 C r c (C r c - N.of_nat (times false bs))%N) m (code_of k m r c) (flushed bs q) a' /\
    out a' ++ flushed bs q = out a ++ q /\ r_timer (a_rep a') = (r_timer (a_rep a) - N.of_nat (times true bs))%N.
Proof.
  induction bs as [|b bs IH]; intros rds k D C m q a r c Hk Hr Hc HD LOW HQ P HA HR HC HT.
  - inv HR. exists a. split; [reflexivity|]. split; [|split; [reflexivity|cbn; lia]]. apply (pose_ext k D D C); auto. intros r' c' _ _.
    unfold set2. destruct (Nat.eqb_spec r' r), (Nat.eqb_spec c' c); cbn [andb]; auto. subst. cbn. lia.
  - inversion HR as [|? rd ? rds' H1 H2]; subst. assert (HO := others_low _ _ _ _ _ _ _ H1 HA). rewrite times_cons in HC, HT.
    set (code := code_of k m r c) in *.
    assert (Q1 : length q <= 1) by (destruct HQ as [-> | ->]; cbn; lia).
    assert (Q2 : Forall (fun x => x < 0xA0)%N q) by (destruct HQ as [-> | ->]; repeat constructor; auto).
    assert (FL : flushed bs (@nil N) = []) by (destruct bs; reflexivity).
    assert (RD : reading rd r c = b) by (rewrite H1, set2_at by auto; reflexivity).
    cbn [flushed aticks]. destruct b; cbn [Bool.eqb] in HC, HT.
    + assert (EP : q = pend (match q with [] => false | _ => true end) code) by (destruct HQ as [-> | ->]; reflexivity).
      rewrite EP in P.
      destruct (stroke_hold_tick k D C m a r c rd (match q with [] => false | _ => true end) (r_timer (a_rep a))) as (a1&E1&P1&T1&O1); auto.
      { intros r' c' Hr' Hc' E X. specialize (HA r' c' Hr' Hc' E). rewrite X in HA. unfold code in LOW. lia. }
      { intros r' c' Hr' Hc'. rewrite H1 by auto. unfold set2. destruct (Nat.eqb_spec r' r), (Nat.eqb_spec c' c); cbn [andb]; auto. congruence. }
      fold code in P1, O1. assert (NP : next_p (r_timer (a_rep a)) = false) by (unfold next_p; lia). rewrite NP in P1. cbn [pend] in P1.
      assert (NT : next_t (r_timer (a_rep a)) = (r_timer (a_rep a) - 1)%N) by (unfold next_t; replace (_ =? 1)%N with false by lia; auto).
      rewrite NT in T1. rewrite <- EP in O1.
      destruct (IH rds' k D C m [] a1 r c) as (a2&E2&P2&O2&T2); auto; [lia|].
      exists a2. rewrite app_nil_r, E1. cbn [obind]. split; [exact E2|]. rewrite FL in *. rewrite !app_nil_r in O2. split; [|split; [congruence|]].
      * apply (pose_ext _ _ _ _ _ _ _ _ _ P2); auto.
      * rewrite T2, T1, times_cons. cbn [Bool.eqb]. lia.
    + destruct (count_tick k D C m code q a rd r c low) as (a1&E1&P1&O1); auto; [unfold low; lia|rewrite HD; auto|lia|].
      assert (T1 : r_timer (a_rep a1) = r_timer (a_rep a)).
      { clear IH. destruct (pose_send _ _ _ _ _ _ _ P Q1 Q2) as (PS&RS&OS).
        pose proof (pose_tick k D C m code q a rd r c low (put_ct (set2 (a_ct (asend a)) r c (C r c - 1)%N) (asend a)) D (set2 C r c (C r c - 1)%N) m code []) as X.
        rewrite X in E1; auto; [inv E1; cbn [a_rep put_ct]; congruence|unfold low; lia| | |unfold low; lia].
        - unfold key_step. cbv zeta. rewrite (ps_dn _ _ _ _ _ _ _ PS), (ps_ct _ _ _ _ _ _ _ PS), RD, HD by auto.
          cbn [Bool.eqb]. replace (C r c =? 1)%N with false by lia. reflexivity.
        - destruct PS as [Z1 Z2 Z3 Z4 Z5 Z6 Z7 Z8 Z9]. constructor; auto. intros r' c' Hr' Hc'. cbn [a_ct put_ct]. apply set2_cong. auto. }
      destruct (IH rds' k D (set2 C r c (C r c - 1)%N) m [] a1 r c) as (a2&E2&P2&O2&T2); auto.
      { rewrite set2_at. lia. }
      { lia. }
      exists a2. rewrite app_nil_r, E1. cbn [obind]. split; [exact E2|]. rewrite FL in *. rewrite !app_nil_r in O2. split; [|split; [congruence|]].
      * apply (pose_ext _ _ _ _ _ _ _ _ _ P2); auto. intros r' c' _ _. rewrite times_cons. cbn [Bool.eqb]. unfold set2. rewrite !Nat.eqb_refl. cbn [andb].
        destruct (Nat.eqb_spec r' r), (Nat.eqb_spec c' c); cbn [andb]; auto. lia.
      * rewrite T2, T1, times_cons. cbn [Bool.eqb]. lia.
Qed.

(** Counters that are in range. *)
Definition ranged (C : nat -> nat -> N) : Prop := forall r c, r < 9 -> c < 8 -> (1 <= C r c <= 10)%N.
Lemma ranged_set : forall C r c n, ranged C -> (1 <= n <= 10)%N -> ranged (set2 C r c n).
Proof. intros C r c n H Hn r' c' Hr Hc. unfold set2. destruct (_ && _); auto. Qed.

Lemma clear_actions : forall k m D r c, actions_only k m D -> actions_only k m (set2 D r c false).
Proof. intros k m D r c H r' c' Hr Hc E. apply H; auto. unfold set2 in E. destruct (_ && _); auto. discriminate E. Qed.
Lemma readings_set : forall D r c v l rds, readings D r c l rds -> readings (set2 D r c v) r c l rds.
Proof.
  intros D r c v l rds H. induction H as [|b rd l rds H1 H2 IH]; constructor; auto.
  intros r' c' Hr Hc. rewrite H1 by auto. unfold set2. destruct (_ && _); auto.
Qed.

(** The tick in which a character key becomes accepted. *)
Lemma press_tick : forall k D C m x a rd r c, (k < 4)%N -> r < 9 -> c < 8 -> D r c = false ->
  Pose k D C m x [] a -> (code_of k m r c < 0xA0)%N -> code_of k m r c <> x -> low x -> actions_only k m D -> C r c = 1%N ->
  shows (set2 D r c true) rd ->
  exists a', atick rd a = Some a' /\ Pose k (set2 D r c true) (set2 C r c 10%N) m (code_of k m r c) [code_of k m r c] a' /\
    r_timer (a_rep a') = 525%N /\ out a' = out a.
Proof.
  intros k D C m x a rd r c Hk Hr Hc HD P LOW NE HX HA CC HS. set (code := code_of k m r c) in *.
  assert (RD : reading rd r c = negb (D r c)) by (rewrite HS, set2_at, HD by auto; auto).
  assert (HO : others k m D r c low rd) by (apply (others_low k m D r c true); auto; apply clear_actions; auto).
  destruct (accept_step k D C m x a rd r c Hk Hr Hc P RD CC) as [PA KS]. rewrite HD in PA, KS. cbn [negb] in PA, KS.
  fold code in KS. assert (O2 : out (accept r c true a) = out a) by reflexivity.
  set (a2 := accept r c true a) in *. clearbody a2.
  assert (AP : apress code a2 = put_rep (repeat_reset_count (a_rep a2)) (put_last code (put_qk [code] a2))).
  { unfold apress. replace (0xA0 <? code)%N with false by lia. cbv zeta. cbn [a_rep put_qk].
    rewrite (ps_last _ _ _ _ _ _ _ PA), (ps_qk _ _ _ _ _ _ _ PA). replace (x =? code)%N with false by lia. reflexivity. }
  rewrite AP in KS. clear AP. set (b := put_rep _ _) in KS.
  assert (PB : Pose k (set2 D r c true) (set2 C r c 10%N) m code [code] b) by (destruct PA; constructor; auto).
  exists b. split.
  - assert (SA : asend a = a) by (unfold asend; rewrite (ps_qm _ _ _ _ _ _ _ P), (ps_qk _ _ _ _ _ _ _ P); auto).
    apply (pose_tick k D C m x [] a rd r c low b (set2 D r c true) (set2 C r c 10%N) m code [code]); auto; try (cbn; lia).
    + rewrite SA. exact KS.
    + apply others_set; auto.
    + unfold low. lia.
  - split; auto. split; [|rewrite <- O2; reflexivity].
    cbn [b a_rep put_rep repeat_reset_count r_timer]. rewrite (ps_auto _ _ _ _ _ _ _ PA). reflexivity.
Qed.

(** The tick in which its release becomes accepted. *)
Lemma release_tick : forall k D C m q a rd r c, (k < 4)%N -> r < 9 -> c < 8 -> D r c = true ->
  Pose k D C m (code_of k m r c) q a -> (q = [] \/ q = [code_of k m r c]) -> (code_of k m r c < 0xA0)%N ->
  actions_only k m (set2 D r c false) -> C r c = 1%N -> shows (set2 D r c false) rd ->
  exists a', atick rd a = Some a' /\ Pose k (set2 D r c false) (set2 C r c 10%N) m 0xA0 [] a' /\ out a' = out a ++ q.
Proof.
  intros k D C m q a rd r c Hk Hr Hc HD P HQ LOW HA CC HS. set (code := code_of k m r c) in *.
  assert (Q1 : length q <= 1) by (destruct HQ as [-> | ->]; cbn; lia).
  assert (Q2 : Forall (fun x => x < 0xA0)%N q) by (destruct HQ as [-> | ->]; repeat constructor; auto).
  assert (RD : reading rd r c = negb (D r c)) by (rewrite HS, set2_at, HD by auto; auto).
  assert (HO : others k m D r c low rd) by (apply (others_low k m D r c false); auto).
  destruct (pose_send _ _ _ _ _ _ _ P Q1 Q2) as (PS&_&OS).
  destruct (accept_step k D C m code (asend a) rd r c Hk Hr Hc PS RD CC) as [PA KS]. rewrite HD in PA, KS. cbn [negb] in PA, KS.
  fold code in KS. assert (O2 : out (accept r c false (asend a)) = out (asend a)) by reflexivity.
  set (a2 := accept r c false (asend a)) in *. clearbody a2.
  assert (AP : arelease code a2 = put_last 0xA0 a2).
  { unfold arelease. replace (0xA0 <? code)%N with false by lia. rewrite (ps_last _ _ _ _ _ _ _ PA), N.eqb_refl. reflexivity. }
  rewrite AP in KS. clear AP. set (b := put_last _ _) in KS.
  assert (PB : Pose k (set2 D r c false) (set2 C r c 10%N) m 0xA0 [] b) by (destruct PA; constructor; auto).
  exists b. split.
  - apply (pose_tick k D C m code q a rd r c low b (set2 D r c false) (set2 C r c 10%N) m 0xA0%N []); auto.
    + unfold low. lia.
    + apply others_set; auto.
    + unfold low. lia.
  - split; auto. rewrite <- OS, <- O2. reflexivity.
Qed.

(** The tick in which a modifier key goes down or up. *)
Lemma press_pose' : forall k D C m m1 x a code, Pose k D C m x [] a -> mod_press (decode code) m = Some m1 ->
  Pose k D C m1 x [] (apress code a) /\ out (apress code a) = out a.
Proof.
  intros k D C m m1 x a code P H.
  assert (P0 : Pose k D C m 0xA0 [] (put_last 0xA0 a)) by (destruct P; constructor; auto).
  destruct (press_pose k D C m m1 _ code P0 H) as [P1 O1].
  pose proof (mod_press_form _ _ _ H) as HX. pose proof (mod_codes code _ eq_refl HX) as HG.
  assert (E : apress code (put_last 0xA0 a) = put_last 0xA0 (apress code a) /\ a_last (apress code a) = a_last a).
  { unfold apress. replace (0xA0 <? code)%N with true by lia. unfold aaction_on.
    destruct HX as [HX|[HX|HX]]; rewrite HX; unfold aset_shift, aset_ctrl, atoggle_caps, aact;
      cbn [a_cur a_lev a_mod put_last]; try (destruct (spec_action _ _ _)); split; reflexivity. }
  destruct E as [E1 E2]. rewrite E1 in P1, O1. split; [|exact O1].
  assert (X : a_last (apress code a) = x) by (rewrite E2; apply (ps_last _ _ _ _ _ _ _ P)).
  destruct P1 as [Z1 Z2 Z3 Z4 Z5 Z6 Z7 Z8 Z9]. constructor; auto.
Qed.
Lemma release_pose' : forall k D C m m1 x a code, Pose k D C m x [] a -> mod_release (decode code) m = Some m1 ->
  Pose k D C m1 x [] (arelease code a) /\ out (arelease code a) = out a.
Proof.
  intros k D C m m1 x a code P H.
  assert (P0 : Pose k D C m 0xA0 [] (put_last 0xA0 a)) by (destruct P; constructor; auto).
  destruct (release_pose k D C m m1 _ code P0 H) as [P1 O1].
  pose proof (mod_release_form _ _ _ H) as HX. pose proof (mod_codes code _ eq_refl HX) as HG.
  assert (E : arelease code (put_last 0xA0 a) = put_last 0xA0 (arelease code a) /\ a_last (arelease code a) = a_last a).
  { unfold arelease. replace (0xA0 <? code)%N with true by lia. unfold aaction_off.
    destruct HX as [HX|[HX|HX]]; rewrite HX; unfold aset_shift, aset_ctrl, aact;
      cbn [a_cur a_lev a_mod put_last]; try (destruct (spec_action _ _ _)); split; reflexivity. }
  destruct E as [E1 E2]. rewrite E1 in P1, O1. split; [|exact O1].
  assert (X : a_last (arelease code a) = x) by (rewrite E2; apply (ps_last _ _ _ _ _ _ _ P)).
  destruct P1 as [Z1 Z2 Z3 Z4 Z5 Z6 Z7 Z8 Z9]. constructor; auto.
Qed.

Lemma mod_tick : forall k D C m m1 x a rd r c, (k < 4)%N -> r < 9 -> c < 8 -> Pose k D C m x [] a -> low x ->
  (if D r c then mod_release else mod_press) (decode (code_of k m r c)) m = Some m1 ->
  actions_only k m (set2 D r c false) -> actions_only k m1 (set2 D r c false) -> C r c = 1%N ->
  shows (set2 D r c (negb (D r c))) rd ->
  exists a', atick rd a = Some a' /\ Pose k (set2 D r c (negb (D r c))) (set2 C r c 10%N) m1 x [] a' /\ out a' = out a.
Proof.
  intros k D C m m1 x a rd r c Hk Hr Hc P HX HM HA HA1 CC HS. set (code := code_of k m r c) in *.
  assert (RD : reading rd r c = negb (D r c)) by (rewrite HS, set2_at by auto; auto).
  assert (HO : others k m D r c low rd) by (apply (others_low k m D r c (negb (D r c))); auto).
  assert (HO1 : others k m1 D r c low rd) by (apply (others_low k m1 D r c (negb (D r c))); auto).
  destruct (accept_step k D C m x a rd r c Hk Hr Hc P RD CC) as [PA KS]. fold code in KS.
  assert (O2 : out (accept r c (negb (D r c)) a) = out a) by reflexivity.
  set (a2 := accept r c (negb (D r c)) a) in *. clearbody a2.
  set (b := (if negb (D r c) then apress else arelease) code a2) in *.
  assert (PB : Pose k (set2 D r c (negb (D r c))) (set2 C r c 10%N) m1 x [] b /\ out b = out a2).
  { unfold b. destruct (D r c); cbn [negb] in *; [apply (release_pose' _ _ _ m)|apply (press_pose' _ _ _ m)]; auto. }
  destruct PB as [PB OB]. exists b. split; [|split; [auto|congruence]].
  assert (SA : asend a = a) by (unfold asend; rewrite (ps_qm _ _ _ _ _ _ _ P), (ps_qk _ _ _ _ _ _ _ P); auto).
  apply (pose_tick k D C m x [] a rd r c low b (set2 D r c (negb (D r c))) (set2 C r c 10%N) m1 x []); auto; try (cbn; lia).
  + rewrite SA. exact KS.
  + apply others_set; auto.
Qed.

Lemma flushed_nil : forall A (l : list A), flushed l [] = [].
Proof. intros A l. destruct l; reflexivity. Qed.
Lemma aticks_one : forall rd rds a, aticks (rd :: rds) a = obind (atick rd a) (aticks rds).
Proof. reflexivity. Qed.
Lemma readings_mid : forall D r c u b v rds, readings D r c (u ++ b :: v) rds ->
  exists rds1 rd rds2, rds = rds1 ++ rd :: rds2 /\ readings D r c u rds1 /\ shows (set2 D r c b) rd /\ readings D r c v rds2.
Proof.
  intros D r c u b v rds H. apply readings_app in H. destruct H as (r1&r2&->&A&B). inversion B as [|? rd ? r3 H1 H2]; subst.
  exists r1, rd, r3. auto.
Qed.
Lemma shows_ext : forall D D' rd, (forall r c, D r c = D' r c) -> shows D rd -> shows D' rd.
Proof. intros D D' rd E H r c Hr Hc. rewrite <- E. apply H; auto. Qed.
Lemma set2_twice : forall A (f : nat -> nat -> A) r c x y r' c', set2 (set2 f r c x) r c y r' c' = set2 f r c y r' c'.
Proof. intros. unfold set2. destruct (_ && _); reflexivity. Qed.

Lemma stroke_bounce : forall bs1 bs2 press release k D C m x a r c, (k < 4)%N -> r < 9 -> c < 8 -> D r c = false ->
  Pose k D C m x [] a -> ranged C -> (code_of k m r c < 0xA0)%N -> code_of k m r c <> x -> low x -> actions_only k m D ->
  readings D r c bs1 press -> settles true bs1 -> readings D r c bs2 release -> settles false bs2 ->
  times true (bs1 ++ bs2) <= 525 ->
  exists a' C', aticks (press ++ release) a = Some a' /\ Pose k D C' m 0xA0 [] a' /\ ranged C' /\
    out a' = out a ++ [code_of k m r c].
Proof.
  intros bs1 bs2 press release k D C m x a r c Hk Hr Hc HD P RC LOW NE HX HA R1 [S1 S1'] R2 [S2 S2'] TT.
  cbn [negb] in S1', S2'. pose proof (RC r c Hr Hc) as RCC.
  destruct (times_split true (N.to_nat (C r c)) bs1) as (u1&v1&->&U1); try lia.
  rewrite times_app, times_cons in S1'. cbn [Bool.eqb] in S1'.
  destruct (times_split false (10 - times false v1) bs2) as (u2&v2&->&U2); try lia.
  rewrite times_app, times_cons in S2'. cbn [Bool.eqb] in S2'.
  rewrite !times_app, !times_cons in TT. cbn [Bool.eqb] in TT.
  apply readings_mid in R1. destruct R1 as (p1&rd1&p2&->&RU1&SH1&RV1).
  apply readings_mid in R2. destruct R2 as (q1&rd2&q2&->&RU2&SH2&RV2).
  destruct (idle_phase u1 p1 k D C m x [] a r c) as (a1&E1&P1&O1); auto.
  { apply clear_actions; auto. }
  { rewrite HD. cbn [negb]. lia. }
  rewrite flushed_nil, !app_nil_r in *. rewrite HD in P1. cbn [negb] in P1.
  replace (C r c - N.of_nat (times true u1))%N with 1%N in P1 by lia.
  destruct (press_tick k D (set2 C r c 1%N) m x a1 rd1 r c) as (a2&E2&P2&T2&O2); auto; [apply set2_at|].
  set (D1 := set2 D r c true) in *. set (C2 := set2 (set2 C r c 1%N) r c 10%N) in *. set (code := code_of k m r c) in *.
  assert (BK : forall r' c', set2 D1 r c false r' c' = D r' c') by (intros; apply set2_back; auto).
  assert (AB : actions_only k m (set2 D1 r c false)).
  { intros r' c' Hr' Hc' E. rewrite BK in E. apply HA; auto. }
  assert (C2C : C2 r c = 10%N) by apply set2_at.
  assert (RR : readings D1 r c (v1 ++ u2) (p2 ++ q1)) by (apply readings_set, Forall2_app; auto).
  destruct (down_phase (v1 ++ u2) (p2 ++ q1) k D1 C2 m [code] a2 r c) as (a3&E3&P3&O3&_); auto.
  { apply set2_at. }
  { rewrite times_app, C2C. lia. }
  { rewrite times_app, T2. lia. }
  rewrite C2C in P3. rewrite times_app in P3. replace (10 - N.of_nat (times false v1 + times false u2))%N with 1%N in P3 by lia.
  assert (FQ : flushed (v1 ++ u2) [code] = [] \/ flushed (v1 ++ u2) [code] = [code]) by (destruct (v1 ++ u2); auto).
  destruct (release_tick k D1 (set2 C2 r c 1%N) m (flushed (v1 ++ u2) [code]) a3 rd2 r c) as (a4&E4&P4&O4); auto.
  { apply set2_at. }
  { apply set2_at. }
  { apply (shows_ext (set2 D r c false)); auto. intros. symmetry. apply set2_twice. }
  set (D2 := set2 D1 r c false) in *. set (C4 := set2 (set2 C2 r c 1%N) r c 10%N) in *.
  destruct (idle_phase v2 q2 k D2 C4 m 0xA0%N [] a4 r c) as (a5&E5&P5&O5); auto.
  { unfold low. lia. }
  { apply clear_actions. auto. }
  { unfold D2. rewrite set2_at. intros E; discriminate E. }
  { unfold D2. apply readings_set. unfold D1. apply readings_set. auto. }
  { unfold D2, C4. rewrite !set2_at. cbn [negb]. lia. }
  rewrite flushed_nil, !app_nil_r in *.
  exists a5, (set2 C4 r c (C4 r c - N.of_nat (times (negb (D2 r c)) v2))%N). split.
  { rewrite <- app_assoc. cbn [app]. rewrite aticks_app, E1. cbn [obind]. rewrite aticks_one, E2. cbn [obind].
    rewrite app_assoc, aticks_app, E3. cbn [obind]. rewrite aticks_one, E4. exact E5. }
  split; [apply (pose_ext _ _ _ _ _ _ _ _ _ P5); auto|]. split; [|congruence].
  assert (CR : ranged C4) by (unfold C4, C2; repeat apply ranged_set; auto; lia).
  apply ranged_set; auto. unfold D2, C4. rewrite !set2_at. cbn [negb]. lia.
Qed.

Lemma mod_bounce : forall bs rds k D C m m1 x a r c, (k < 4)%N -> r < 9 -> c < 8 ->
  Pose k D C m x [] a -> ranged C -> low x ->
  (if D r c then mod_release else mod_press) (decode (code_of k m r c)) m = Some m1 ->
  actions_only k m D -> actions_only k m1 (set2 D r c (negb (D r c))) ->
  readings D r c bs rds -> settles (negb (D r c)) bs ->
  exists a' C', aticks rds a = Some a' /\ Pose k (set2 D r c (negb (D r c))) C' m1 x [] a' /\ ranged C' /\ out a' = out a.
Proof.
  intros bs rds k D C m m1 x a r c Hk Hr Hc P RC HX HM HA HA1 R [S S']. rewrite negb_involutive in S'. pose proof (RC r c Hr Hc) as RCC.
  destruct (times_split (negb (D r c)) (N.to_nat (C r c)) bs) as (u&v&->&U); try lia.
  rewrite times_app, times_cons in S'. replace (Bool.eqb (D r c) (negb (D r c))) with false in S' by (destruct (D r c); auto).
  apply readings_mid in R. destruct R as (p1&rd&p2&->&RU&SH&RV).
  destruct (idle_phase u p1 k D C m x [] a r c) as (a1&E1&P1&O1); auto.
  { apply clear_actions; auto. }
  { intros D1 E. specialize (HA r c Hr Hc D1). unfold low in HX. lia. }
  { lia. }
  rewrite flushed_nil, !app_nil_r in *. replace (C r c - N.of_nat (times (negb (D r c)) u))%N with 1%N in P1 by lia.
  assert (CL : actions_only k m1 (set2 D r c false)).
  { intros r' c' Hr' Hc' E. apply HA1; auto. unfold set2 in *. destruct (_ && _); [discriminate E|auto]. }
  destruct (mod_tick k D (set2 C r c 1%N) m m1 x a1 rd r c) as (a2&E2&P2&O2); auto.
  { apply clear_actions; auto. }
  { apply set2_at. }
  set (D1 := set2 D r c (negb (D r c))) in *. set (C2 := set2 (set2 C r c 1%N) r c 10%N) in *.
  destruct (idle_phase v p2 k D1 C2 m1 x [] a2 r c) as (a3&E3&P3&O3); auto.
  { apply clear_actions; auto. }
  { intros DD E. specialize (HA1 r c Hr Hc DD). unfold low in HX. lia. }
  { apply readings_set; auto. }
  { unfold D1, C2. rewrite !set2_at, negb_involutive. lia. }
  rewrite flushed_nil, !app_nil_r in *.
  exists a3, (set2 C2 r c (C2 r c - N.of_nat (times (negb (D1 r c)) v))%N). split.
  { rewrite aticks_app, E1. cbn [obind]. rewrite aticks_one, E2. exact E3. }
  split; [exact P3|]. split; [|congruence].
  assert (CR : ranged C2) by (unfold C2; repeat apply ranged_set; auto; lia).
  apply ranged_set; auto. unfold D1, C2. rewrite !set2_at, negb_involutive. lia.
Qed.

Lemma bouncing_sim : forall k x D m rds o x' D' m', (k < 4)%N -> bouncing k x D m rds o x' D' m' ->
  forall a C, Pose k D C m x [] a -> ranged C -> low x ->
  exists a' C', aticks rds a = Some a' /\ Pose k D' C' m' x' [] a' /\ out a' = out a ++ o.
Proof.
  intros k x D m rds o x' D' m' Hk B. induction B; intros a C P RC HX.
  - exists a, C. rewrite app_nil_r. auto.
  - destruct (agree_tick k D C m x [] a rd 0 0) as (a1&E1&P1&O1); auto; try lia.
    { apply (others_low k m D 0 0 (D 0 0)); [|apply clear_actions; auto]. apply (shows_ext D); auto.
      intros r c. unfold set2. destruct (Nat.eqb_spec r 0), (Nat.eqb_spec c 0); cbn [andb]; auto; congruence. }
    { apply H; lia. }
    { intros D0 E. unfold low in HX. specialize (H0 0 0 ltac:(lia) ltac:(lia) D0). lia. }
    destruct (IHB a1 C P1 RC HX) as (a'&C'&E&P'&O). exists a', C'. rewrite app_nil_r in O1. cbn [aticks]. rewrite E1. cbn [obind]. rewrite <- O1. auto.
  - destruct (stroke_bounce bs1 bs2 press release k D C m x a r c) as (a1&C1&E1&P1&RC1&O1); auto.
    destruct (IHB a1 C1 P1 RC1) as (a'&C'&E&P'&O); [unfold low; lia|]. exists a', C'. rewrite app_assoc, aticks_app, E1. cbn [obind].
    split; auto. split; auto. rewrite O, O1, <- app_assoc. reflexivity.
  - destruct (mod_bounce bs press k D C m m1 x a r c) as (a1&C1&E1&P1&RC1&O1); auto; try (rewrite H1; auto).
    rewrite H1 in P1. destruct (IHB a1 C1 P1 RC1 HX) as (a'&C'&E&P'&O). exists a', C'. rewrite aticks_app, E1. cbn [obind]. rewrite <- O1. auto.
  - destruct (mod_bounce bs release k D C m m1 x a r c) as (a1&C1&E1&P1&RC1&O1); auto; try (rewrite H1; auto).
    rewrite H1 in P1. destruct (IHB a1 C1 P1 RC1 HX) as (a'&C'&E&P'&O). exists a', C'. rewrite aticks_app, E1. cbn [obind]. rewrite <- O1. auto.
Qed.


(** ** C78 *)
Lemma calm_pose : forall pre s a x, run pre = Ok s -> Rel a s -> calm x s ->
  Pose (k_cur s) (down s) (a_ct a) (modes_of s) x [] a /\ ranged (a_ct a).
Proof.
  intros pre s a x H RL (R1&R2&R3&R4). split.
  - constructor; auto.
    + symmetry. apply (rl_cur _ _ RL).
    + unfold amodes, modes_of, ctrl_on, shift_on, caps_on. rewrite (rl_mod _ _ RL). reflexivity.
    + rewrite <- (rl_last _ _ RL). auto.
    + rewrite <- (msg_queue_ok _ _ RL). auto.
    + rewrite <- (key_queue_ok _ _ RL). auto.
    + intros r c Hr Hc. symmetry. apply (down_ok _ _ _ _ RL); lia.
    + rewrite <- (rl_rep _ _ RL). auto.
    + rewrite <- (rl_mod _ _ RL). apply (caps_lt _ _ H).
  - intros r c Hr Hc. destruct (count_ok _ _ r c RL) as [C1 C2]; auto; lia.
Qed.
Lemma last_le : forall pre s, run pre = Ok s -> (k_last s <= 0xA0)%N.
Proof. intros pre s H. destruct (reach _ _ H) as [a [A RL]]. rewrite (rl_last _ _ RL). apply (led_inv _ _ A). Qed.

Lemma bouncing_codes : forall k x D m rds o x' D' m', bouncing k x D m rds o x' D' m' -> Forall (fun c => c < 0xA0)%N o.
Proof. intros k x D m rds o x' D' m' B. induction B; auto. Qed.
Lemma bouncing_run : forall pre s rds o x x' D' m', run pre = Ok s -> (k_cur s < 4)%N -> calm x s ->
  bouncing (k_cur s) x (down s) (modes_of s) rds o x' D' m' ->
  exists s' l, ticks rds s = Ok s' /\ events s' = events s ++ l /\ sends l = o /\ Forall instant l /\
    calm x' s' /\ k_cur s' = k_cur s /\ modes_of s' = m' /\
    forall r c, r < 9 -> c < 8 -> down s' r c = D' r c.
Proof.
  intros pre s rds o x x' D' m' H Hk HC B. destruct (reach _ _ H) as [a [A RL]].
  destruct (calm_pose _ _ _ _ H RL HC) as [P RC].
  assert (HX : low x) by (destruct HC as [<- _]; apply (last_le _ _ H)).
  destruct (bouncing_sim _ _ _ _ _ _ _ _ _ Hk B a _ P RC HX) as (a'&C'&E&P'&O).
  pose proof (ticks_sim rds _ _ RL) as X. unfold sim in X. rewrite E in X. destruct X as [s' [E' RL']].
  destruct P' as [P1 P2 P3 P4 P5 P6 P7 P8 P9].
  destruct (out_new _ _ _ (ticks_grow _ _ _ E) O (bouncing_codes _ _ _ _ _ _ _ _ _ B)) as (l&EL&SL&IL).
  exists s', l. split; auto. split; [rewrite (events_ok _ _ RL), (events_ok _ _ RL'); exact EL|]. split; auto. split; auto. split.
  { split; [rewrite (rl_last _ _ RL'); auto|]. split; [rewrite (key_queue_ok _ _ RL'); auto|].
    split; [rewrite (msg_queue_ok _ _ RL'); auto|rewrite (rl_rep _ _ RL'); auto]. }
  split; [rewrite (rl_cur _ _ RL'); auto|].
  split; [rewrite <- P2; unfold amodes, modes_of, ctrl_on, shift_on, caps_on; rewrite (rl_mod _ _ RL'); reflexivity|].
  intros r c Hr Hc. rewrite (down_ok _ _ _ _ RL') by lia. auto.
Qed.

(** Typing with bouncing contacts, from any state with nothing queued: the host
    receives exactly the codes of the keystrokes, in order, each once. *)
Theorem C78_bouncing_typist : forall pre s rds o x x' D' m', run pre = Ok s -> (k_cur s < 4)%N -> calm x s ->
  bouncing (k_cur s) x (down s) (modes_of s) rds o x' D' m' ->
  exists s', ticks rds s = Ok s' /\ sent s' = sent s ++ o /\
    calm x' s' /\ k_cur s' = k_cur s /\ modes_of s' = m' /\
    forall r c, r < 9 -> c < 8 -> down s' r c = D' r c.
Proof.
  intros pre s rds o x x' D' m' H Hk HC B. destruct (bouncing_run _ _ _ _ _ _ _ _ H Hk HC B) as (s'&l&E&EV&SL&_&R).
  exists s'. split; auto. split; auto. unfold sent. rewrite EV, sends_app, SL. reflexivity.
Qed.
Print Assumptions C78_bouncing_typist.

(** ** C79 *)
(** All keys open, the switches as accepted. *)
Definition left_alone (s : kb) (rd : nat -> N) : Prop :=
  (forall r c, r < 8 -> c < 8 -> reading rd r c = false) /\ (forall c, c < 8 -> reading rd 8 c = down s 8 c).

Definition outs (a : akb) : list N := sends (rev (a_log a)).
Lemma outs_silent : forall a b, (exists l, a_log b = l ++ a_log a /\ Forall silent l) -> outs b = outs a.
Proof.
  intros a b (l&E&F). unfold outs. rewrite E, rev_app_distr, sends_app.
  rewrite (silent_sends (rev l)); [apply app_nil_r|]. apply Forall_rev; auto.
Qed.
Definition Alone (D : nat -> bool) (k : N) (a : akb) : Prop :=
  a_cur a = k /\ (k < 4)%N /\ last_low a /\ D 4 = false /\ forall c, c < 8 -> a_dn a 8 c = D c.
Definition alone (D : nat -> bool) (rd : nat -> N) : Prop :=
  forall r c, r < 9 -> c < 8 -> reading rd r c = if r =? 8 then D c else false.

(** Row 8, but for the fifth switch, carries actions, and only it selects
    keyboards. *)
Lemma row8_codes_ok : all_codes (fun k m r c code =>
  (if (r =? 8) && negb (c =? 4) then (0xA0 <? code)%N else true) &&
  (if r <? 8 then match decode code with AMapsel _ => false | _ => true end else true)) = true.
Proof. vm_compute. reflexivity. Qed.

Lemma alone_step : forall D k rd r c a, Alone D k a -> alone D rd -> r < 9 -> c < 8 ->
  exists a', key_step rd r c a = Some a' /\ Alone D k a' /\ a_qm a' = a_qm a /\ a_qk a' = a_qk a /\ outs a' = outs a.
Proof.
  intros D k rd r c a (A1&A2&A3&A4&A5) HR Hr Hc.
  assert (E : exists y, key_step rd r c a = Some y).
  { unfold key_step, acode. cbn [a_cur put_dn put_ct]. rewrite A1. replace (k <? 4)%N with true by lia. cbn [obind].
    destruct (Bool.eqb _ _); [destruct (reading rd r c)|destruct (_ =? 1)%N]; eauto. }
  destruct E as [y E]. exists y. split; auto. specialize (HR r c Hr Hc).
  assert (Hk : (a_cur a < 4)%N) by (rewrite A1; auto).
  pose proof (code_now_check _ row8_codes_ok a r c Hk Hr Hc) as CO. apply andb_prop in CO. destruct CO as [CO1 CO2].
  destruct (key_step_cases _ _ _ _ _ E) as [H1 H2|H1 H2|H0 H1 H2|H0 H1 H2 H3|H0 H1 H2 H3].
  - repeat split; auto.
  - repeat split; auto.
  - assert (r = 8) as -> by (destruct (Nat.eqb_spec r 8); [auto|congruence]). cbn [Nat.eqb] in HR.
    assert (c <> 4) by congruence. replace ((8 =? 8) && negb (c =? 4)) with true in CO1 by lia.
    unfold aheld. unfold last_low in A3. replace (code_now a 8 c =? a_last a)%N with false by lia. repeat split; auto.
  - exfalso. destruct (Nat.eqb_spec r 8); [subst r|congruence]. rewrite A5 in H2 by auto. congruence.
  - destruct (Nat.eqb_spec r 8); [subst r; rewrite A5 in H2 by auto; congruence|].
    replace (r <? 8) with true in CO2 by lia.
    set (y := accept r c false a) in *. set (code := code_now a r c) in *.
    assert (NM : forall n, decode code <> AMapsel n) by (intros n' X; rewrite X in CO2; discriminate CO2).
    assert (D8 : forall c', c' < 8 -> a_dn (arelease code y) 8 c' = D c').
    { intros c' Hc'. destruct (arelease_dn code y) as [-> _]. unfold y. cbn [a_dn accept put_dn]. rewrite set2_off by lia. auto. }
    split.
    { split; [rewrite release_cur by auto; exact A1|]. split; auto. split; [apply release_last_low; exact A3|]. split; auto. }
    unfold arelease. destruct (0xA0 <? code)%N.
    + rewrite off_qm, off_qk. split; auto. split; auto. rewrite (outs_silent y); [reflexivity|apply off_log].
    + destruct (a_last y =? code)%N; repeat split; reflexivity.
Qed.

Lemma alone_keys : forall D k rd ps a, Alone D k a -> alone D rd -> Forall (fun p => fst p < 9 /\ snd p < 8) ps ->
  exists a', keys_step rd ps a = Some a' /\ Alone D k a' /\ a_qm a' = a_qm a /\ a_qk a' = a_qk a /\ outs a' = outs a.
Proof.
  intros D k rd ps. induction ps as [|[r c] ps IH]; intros a HA HR HF.
  - exists a. repeat split; auto; apply HA.
  - inv HF. cbn [fst snd] in H1. destruct (alone_step D k rd r c a HA HR) as (b&E&B1&B2&B3&B4); try tauto.
    destruct (IH b B1 HR H2) as (a'&E'&C1&C2&C3&C4). exists a'. rewrite keys_cons, E. cbn [obind]. split; auto. split; auto.
    repeat split; congruence.
Qed.

(** What is still to be sent. *)
Definition due (qm qk : list N) : list N := qm ++ filter (fun c => c <? 0xA0)%N qk.
Lemma asend_due : forall a, outs (asend a) ++ due (a_qm (asend a)) (a_qk (asend a)) = outs a ++ due (a_qm a) (a_qk a) /\
  length (a_qm (asend a)) + length (a_qk (asend a)) = length (a_qm a) + length (a_qk a) - 1.
Proof.
  intros a. unfold asend, outs, due. destruct (a_qm a) as [|x q] eqn:EM.
  - destruct (a_qk a) as [|x q] eqn:EK.
    + rewrite EM, EK. auto.
    + cbn [filter length]. destruct (x <? 0xA0)%N; cbn [a_qm a_qk a_log note put_log put_qk rev]; rewrite EM; cbn [app length].
      * rewrite sends_app, <- app_assoc. split; [reflexivity|lia].
      * split; [reflexivity|lia].
  - cbn [a_qm a_qk a_log note put_log put_qm rev length]. rewrite !sends_app, <- !app_assoc. split; [reflexivity|lia].
Qed.

Lemma alone_tick : forall D k rd a, Alone D k a -> alone D rd ->
  exists a', atick rd a = Some a' /\ Alone D k a' /\
    outs a' ++ due (a_qm a') (a_qk a') = outs a ++ due (a_qm a) (a_qk a) /\
    length (a_qm a') + length (a_qk a') = length (a_qm a) + length (a_qk a) - 1.
Proof.
  intros D k rd a HA HR.
  assert (HS : Alone D k (asend a)).
  { destruct HA as (A1&A2&A3&A4&A5). unfold Alone, last_low. rewrite send_cur, send_last. destruct (asend_dn a) as [-> _]. auto. }
  destruct (alone_keys D k rd (grid 0 9) (asend a) HS HR (grid_bounds 0 9 9 ltac:(lia))) as (b&E&B1&B2&B3&B4).
  exists b. split.
  - unfold atick, ascan. rewrite E. cbn [obind]. rewrite rows_9 by (destruct B1 as (->&?&_); auto). apply keys_none.
  - split; auto. rewrite B2, B3, B4. apply asend_due.
Qed.

Lemma alone_ticks : forall D k rds a, Alone D k a -> Forall (alone D) rds ->
  exists a', aticks rds a = Some a' /\ Alone D k a' /\
    outs a' ++ due (a_qm a') (a_qk a') = outs a ++ due (a_qm a) (a_qk a) /\
    length (a_qm a') + length (a_qk a') = length (a_qm a) + length (a_qk a) - length rds.
Proof.
  intros D k rds. induction rds as [|rd rds IH]; intros a HA HF.
  - exists a. split; [reflexivity|]. split; auto. split; auto. cbn. lia.
  - inv HF. destruct (alone_tick D k rd a HA H1) as (b&E&B1&B2&B3). destruct (IH b B1 H2) as (a'&E'&C1&C2&C3).
    exists a'. cbn [aticks]. rewrite E. cbn [obind]. split; auto. split; auto. split; [congruence|]. cbn [length]. lia.
Qed.

(** After ten ticks all keys are up. *)
Lemma db_wait : forall n b x, (n < snd x)%N -> fst x = negb b ->
  fold_left db (repeat b (N.to_nat n)) x = (fst x, (snd x - n)%N).
Proof.
  intros n b x. rewrite <- (N2Nat.id n) at 1 3. generalize (N.to_nat n). clear n. intros n. revert x.
  induction n as [|n IH]; intros [v t] Hn Hv; cbn [fst snd] in *; [cbn; f_equal; lia|].
  cbn [repeat fold_left]. unfold db at 2. cbn [fst snd]. subst v. replace (Bool.eqb b (negb b)) with false by (destruct b; auto).
  replace (t =? 1)%N with false by lia. rewrite IH; cbn [fst snd]; auto; [f_equal; lia|lia].
Qed.
Lemma db_keep : forall n b t, fold_left db (repeat b n) (b, t) = (b, t).
Proof. induction n as [|n IH]; intros b t; [reflexivity|]. cbn [repeat fold_left]. unfold db at 2. cbn [fst snd]. rewrite eqb_reflx. apply IH. Qed.
Lemma db_ten : forall n b x, (1 <= snd x <= 10)%N -> 10 <= n -> fst (fold_left db (repeat b n) x) = b.
Proof.
  intros n b [v t] Ht Hn. cbn [fst snd] in *. destruct (bool_dec v b) as [->|NE]; [rewrite db_keep; reflexivity|].
  assert (EV : v = negb b) by (destruct v, b; cbn [negb]; congruence).
  replace n with (N.to_nat (t - 1) + (1 + (n - N.to_nat t))) by lia. rewrite repeat_app, fold_left_app.
  rewrite db_wait by (cbn [fst snd]; auto; lia). cbn [repeat fold_left Nat.add]. cbn [fst snd]. replace (t - (t - 1))%N with 1%N by lia.
  unfold db at 2. cbn [fst snd]. subst v. replace (Bool.eqb b (negb b)) with false by (destruct b; auto). cbn [N.eqb Pos.eqb].
  rewrite db_keep. reflexivity.
Qed.
Lemma alone_up : forall D k rds a a', Alone D k a -> Forall (alone D) rds -> aticks rds a = Some a' -> 10 <= length rds ->
  (forall r c, r < 9 -> c < 8 -> (1 <= a_ct a r c <= 10)%N) ->
  forall r c, r < 8 -> c < 8 -> a_dn a' r c = false.
Proof.
  intros D k rds a a' HA HF E HL HC r c Hr Hc.
  pose proof (key_hist_from rds a a' r c E ltac:(lia) Hc) as X.
  assert (KR : key_readings rds r c = repeat false (length rds)).
  { clear -HF Hr Hc. unfold key_readings. induction HF as [|rd rds H1 H2 IH]; [reflexivity|]. cbn [map length repeat].
    rewrite IH, H1 by lia. replace (r =? 8) with false by lia. reflexivity. }
  rewrite KR in X. apply (f_equal fst) in X. cbn [fst] in X. rewrite X. apply db_ten; auto. cbn [snd]. apply HC; lia.
Qed.

(** Once the queues are empty and the keys up, a tick does nothing at all. *)
Lemma still_tick : forall D k rd a, Alone D k a -> alone D rd -> a_qm a = [] -> a_qk a = [] ->
  (forall r c, r < 8 -> c < 8 -> a_dn a r c = false) -> atick rd a = Some a.
Proof.
  intros D k rd a HA HR EM EK HU. assert (SA : asend a = a) by (unfold asend; rewrite EM, EK; reflexivity).
  unfold atick, ascan. rewrite SA.
  assert (KS : forall ps, Forall (fun p => fst p < 9 /\ snd p < 8) ps -> keys_step rd ps a = Some a).
  { induction ps as [|[r c] ps IH]; intros HF; [reflexivity|]. inv HF. cbn [fst snd] in H1. destruct H1 as [Hr Hc].
    rewrite keys_cons. destruct HA as (A1&A2&A3&A4&A5).
    assert (E : key_step rd r c a = Some a).
    { pose proof (HR r c Hr Hc) as RD. unfold key_step, acode. cbv zeta. rewrite RD. destruct (Nat.eqb_spec r 8) as [->|NE].
      - rewrite A5, eqb_reflx by auto. destruct (D c) eqn:DC; auto. rewrite A1. replace (k <? 4)%N with true by lia. cbn [obind].
        assert (c <> 4) by congruence. assert (Hk : (a_cur a < 4)%N) by (rewrite A1; auto).
        pose proof (code_now_check _ row8_codes_ok a 8 c Hk Hr Hc) as CO. apply andb_prop in CO. destruct CO as [CO _].
        replace ((8 =? 8) && negb (c =? 4)) with true in CO by lia. unfold code_now in CO. rewrite A1 in CO.
        unfold aheld. unfold last_low in A3. replace (_ =? a_last a)%N with false by lia. reflexivity.
      - rewrite HU by lia. reflexivity. }
    rewrite E. cbn [obind]. apply IH; auto. }
  rewrite KS by (apply (grid_bounds 0 9 9); lia). cbn [obind].
  rewrite rows_9 by (destruct HA as (->&?&_); auto). apply keys_none.
Qed.
Lemma still_ticks : forall D k rds a, Alone D k a -> Forall (alone D) rds -> a_qm a = [] -> a_qk a = [] ->
  (forall r c, r < 8 -> c < 8 -> a_dn a r c = false) -> aticks rds a = Some a.
Proof.
  intros D k rds a HA HF EM EK HU. induction HF as [|rd rds H1 H2 IH]; [reflexivity|].
  cbn [aticks]. rewrite (still_tick D k) by auto. exact IH.
Qed.

Lemma left_alone_alone : forall s rds, Forall (left_alone s) rds -> Forall (alone (down s 8)) rds.
Proof.
  intros s rds H. eapply Forall_impl; [|exact H]. intros rd [H1 H2] r c Hr Hc. destruct (Nat.eqb_spec r 8); [subst; auto|apply H1; lia].
Qed.
Lemma alone_start : forall pre s a, run pre = Ok s -> Rel a s -> (k_cur s < 4)%N -> down s 8 4 = false -> Alone (down s 8) (k_cur s) a.
Proof.
  intros pre s a H RL Hk D4. split; [symmetry; apply (rl_cur _ _ RL)|]. split; auto.
  split; [unfold last_low; rewrite <- (rl_last _ _ RL); apply (last_le _ _ H)|]. split; auto.
  intros c Hc. symmetry. apply (down_ok _ _ _ _ RL); lia.
Qed.

(** However the keyboard came to its state: 144 ticks after the keys were
    released (ten would do for an empty queue) it has sent what was queued, in
    order, and nothing else; the keys are up; and as long as it is left alone it
    makes no further architecture call and changes none of its state. *)
Theorem C79_falls_silent : forall pre s rds, run pre = Ok s -> (k_cur s < 4)%N -> down s 8 4 = false ->
  Forall (left_alone s) rds -> 144 <= length rds ->
  exists s', ticks rds s = Ok s' /\
    sent s' = sent s ++ msg_queue s ++ filter (fun c => c <? 0xA0)%N (key_queue s) /\
    key_queue s' = [] /\ msg_queue s' = [] /\ k_cur s' = k_cur s /\
    (forall c, c < 8 -> down s' 8 c = down s 8 c) /\ (forall r c, r < 8 -> c < 8 -> down s' r c = false) /\
    forall more, Forall (left_alone s) more -> exists s'', ticks more s' = Ok s'' /\
      events s'' = events s' /\ key_queue s'' = [] /\ msg_queue s'' = [] /\ k_last s'' = k_last s' /\ k_rep s'' = k_rep s' /\
      k_mod s'' = k_mod s' /\ k_cur s'' = k_cur s' /\
      (forall r c, r < 9 -> c < 8 -> down s'' r c = down s' r c /\ count s'' r c = count s' r c).
Proof.
  intros pre s rds H Hk D4 HF HL. destruct (reach _ _ H) as [a [A RL]].
  pose proof (alone_start _ _ _ H RL Hk D4) as HA. pose proof (left_alone_alone _ _ HF) as HF'.
  destruct (alone_ticks _ _ rds a HA HF') as (a'&E&B1&B2&B3).
  destruct (qk_bound _ _ RL) as [L1 L2].
  assert (QM : a_qm a' = []) by (destruct (a_qm a'); auto; cbn [length] in B3; lia).
  assert (QK : a_qk a' = []) by (destruct (a_qk a'); auto; rewrite QM in B3; cbn [length] in B3; lia).
  assert (UP : forall r c, r < 8 -> c < 8 -> a_dn a' r c = false).
  { apply (alone_up (down s 8) (k_cur s) rds a); auto; [lia|]. intros r c Hr Hc. destruct (count_ok _ _ r c RL); auto; lia. }
  pose proof (ticks_sim rds _ _ RL) as X. unfold sim in X. rewrite E in X. destruct X as [s' [E' RL']].
  exists s'. split; auto. rewrite QM, QK in B2. unfold due in B2. cbn [filter app] in B2. rewrite app_nil_r in B2.
  split; [rewrite (sent_ok _ _ RL), (sent_ok _ _ RL'), (msg_queue_ok _ _ RL), (key_queue_ok _ _ RL); exact B2|].
  split; [rewrite (key_queue_ok _ _ RL'); auto|]. split; [rewrite (msg_queue_ok _ _ RL'); auto|].
  split; [rewrite (rl_cur _ _ RL'); apply B1|].
  split; [intros c Hc; rewrite (down_ok _ _ _ _ RL') by lia; apply B1; auto|].
  split; [intros r c Hr Hc; rewrite (down_ok _ _ _ _ RL') by lia; auto|].
  intros more HM. pose proof (left_alone_alone _ _ HM) as HM'.
  pose proof (still_ticks _ _ more a' B1 HM' QM QK UP) as E2.
  pose proof (ticks_sim more _ _ RL') as X. unfold sim in X. rewrite E2 in X. destruct X as [s'' [E'' RL'']].
  exists s''. split; auto. rewrite (events_ok _ _ RL'), (events_ok _ _ RL''), (key_queue_ok _ _ RL''), (msg_queue_ok _ _ RL'').
  rewrite (rl_last _ _ RL'), (rl_last _ _ RL''), (rl_rep _ _ RL'), (rl_rep _ _ RL''), (rl_mod _ _ RL'), (rl_mod _ _ RL''), (rl_cur _ _ RL'), (rl_cur _ _ RL'').
  repeat (split; auto).
  - rewrite (down_ok _ _ _ _ RL'), (down_ok _ _ _ _ RL'') by lia. reflexivity.
  - destruct (count_ok _ _ r c RL') as [C1 _]; auto; [lia|]. destruct (count_ok _ _ r c RL'') as [C2 _]; auto; lia.
Qed.
Print Assumptions C79_falls_silent.

(** ** C80 *)
(** Full claim: after any input and 144 ticks of rest, typing is exact.  Proved
    when autorepeat is on and the first key typed is not the one the firmware
    still takes for repeating. *)
Theorem C80_recovers_partial : forall pre s rds, run pre = Ok s -> (k_cur s < 4)%N -> down s 8 4 = false ->
  Forall (left_alone s) rds -> 144 <= length rds ->
  exists s', ticks rds s = Ok s' /\
    (r_state (k_rep s') = RAuto ->
     forall typing o x D m, bouncing (k_cur s') (k_last s') (down s') (modes_of s') typing o x D m ->
     exists s'', ticks typing s' = Ok s'' /\ sent s'' = sent s' ++ o).
Proof.
  intros pre s rds H Hk D4 HF HL. destruct (C79_falls_silent pre s rds H Hk D4 HF HL) as (s'&E&_&Q1&Q2&K&_&_&_).
  exists s'. split; auto. intros HR ty o x D m B.
  assert (H' : run (pre ++ rds) = Ok s') by (rewrite run_app, H, bind_Ok; exact E).
  destruct (C78_bouncing_typist _ s' ty o (k_last s') x D m H') as (s''&E2&S2&_); auto.
  - rewrite K. auto.
  - split; auto.
  - exists s''. auto.
Qed.
Print Assumptions C80_recovers_partial.

(** "p" pressed, SHIFT pressed, "p" released, SHIFT released, a quarter of a
    second of rest; then "p" pressed cleanly for 145 ticks is typed twice. *)
Theorem C80_recovers_refuted : exists pre s rds s' press release s'',
  run pre = Ok s /\ (k_cur s < 4)%N /\ down s 8 4 = false /\ Forall (left_alone s) rds /\ 144 <= length rds /\
  ticks rds s = Ok s' /\ r_state (k_rep s') = RAuto /\
  (code_of (k_cur s') (modes_of s') 1 1 < 0xA0)%N /\
  Forall (shows (set2 (down s') 1 1 true)) press /\ length press = 145 /\ Forall (shows (down s')) release /\ length release = 20 /\
  ticks (press ++ release) s' = Ok s'' /\ sent s'' = sent s' ++ repeat (code_of (k_cur s') (modes_of s') 1 1) 2.
Proof.
  set (pre := hold 400 [(1, 1)] ++ hold 12 [(1, 1); (0, 1)] ++ hold 12 [(0, 1)]).
  set (chk := fun (s : kb) (l : list (nat * nat)) => forallb (fun x => Bool.eqb (reading (matrix l) (fst x) (snd x)) (down s (fst x) (snd x))) (grid 0 9)).
  assert (X : obs (fun s => (k_cur s, forallb (fun c => negb (down s 8 c)) (seq 0 8))) (run pre) = Some (0%N, true)) by (vm_compute; reflexivity).
  assert (Y : obs (fun s => (k_cur s, r_state (k_rep s), modes_of s, sent s, chk s [])) (run (pre ++ hold 250 [])) =
     Some (0%N, RAuto, mkModes false false false, [112]%N, true)) by (vm_compute; reflexivity).
  assert (Z : obs sent (run ((pre ++ hold 250 []) ++ hold 145 [(1, 1)] ++ hold 20 [])) = Some [112; 112; 112]%N) by (vm_compute; reflexivity).
  apply obs_some in X. destruct X as [s [E X]]. apply obs_some in Y. destruct Y as [s' [E' Y]]. apply obs_some in Z. destruct Z as [s'' [E'' Z]].
  rewrite run_app, E', bind_Ok in E''. rewrite run_app, E, bind_Ok in E'. clearbody pre.
  assert (K : k_cur s = 0%N) by congruence.
  assert (D8 : forall c, c < 8 -> down s 8 c = false).
  { intros c Hc. assert (F : forallb (fun c => negb (down s 8 c)) (seq 0 8) = true) by congruence. rewrite forallb_forall in F.
    specialize (F c ltac:(apply in_seq; lia)). destruct (down s 8 c); auto; discriminate F. }
  assert (RD0 : forall r c, reading (matrix []) r c = false) by (intros; unfold reading, matrix; cbn [fold_right]; apply N.bits_0).
  assert (CK : chk s' [] = true) by congruence.
  assert (UP : forall r c, r < 9 -> c < 8 -> down s' r c = false).
  { intros r c Hr Hc. unfold chk in CK. rewrite forallb_forall in CK.
    specialize (CK (r, c) ltac:(unfold grid; apply in_prod_iff; rewrite !in_seq; lia)). cbn [fst snd] in CK. apply eqb_prop in CK. rewrite <- CK. apply RD0. }
  assert (K' : k_cur s' = 0%N) by congruence. assert (M' : modes_of s' = mkModes false false false) by congruence.
  assert (R' : r_state (k_rep s') = RAuto) by congruence. assert (S' : sent s' = [112]%N) by congruence. clear X Y.
  exists pre, s, (hold 250 []), s', (hold 145 [(1, 1)]), (hold 20 []), s''. rewrite K', M', S'.
  split; [exact E|]. split; [lia|]. split; [apply D8; lia|]. split.
  { apply Forall_forall. intros rd I. apply repeat_spec in I. subst rd. split; intros; rewrite RD0; auto. symmetry. apply D8; auto. }
  split; [apply Nat.leb_le; reflexivity|]. split; [exact E'|]. split; [exact R'|]. split; [reflexivity|].
  split.
  { apply Forall_forall. intros rd I. apply repeat_spec in I. subst rd. intros r c Hr Hc. unfold set2. rewrite UP by auto.
    assert (G : forallb (fun x => Bool.eqb (reading (matrix [(1, 1)]) (fst x) (snd x)) ((fst x =? 1) && (snd x =? 1))) (grid 0 9) = true) by (vm_compute; reflexivity).
    rewrite forallb_forall in G. specialize (G (r, c) ltac:(unfold grid; apply in_prod_iff; rewrite !in_seq; lia)). cbn [fst snd] in G.
    apply eqb_prop in G. rewrite G. destruct (_ && _); reflexivity. }
  split; [reflexivity|]. split.
  { apply Forall_forall. intros rd I. apply repeat_spec in I. subst rd. intros r c Hr Hc. rewrite RD0, UP; auto. }
  split; [reflexivity|]. split; [exact E''|exact Z].
Qed.
Print Assumptions C80_recovers_refuted.


Lemma readings_check : forall D r c bs ls,
  forallb (fun p => forallb (fun x => Bool.eqb (reading (matrix (snd p)) (fst x) (snd x)) (set2 D r c (fst p) (fst x) (snd x))) (grid 0 9)) (combine bs ls) = true ->
  length bs = length ls -> readings D r c bs (map matrix ls).
Proof.
  intros D r c bs. induction bs as [|b bs IH]; intros ls H HL; destruct ls as [|l ls]; try discriminate HL; [constructor|].
  cbn [combine forallb fst snd] in H. apply andb_prop in H. destruct H as [H1 H2]. cbn [map]. constructor; [|apply IH; auto].
  intros r' c' Hr Hc. rewrite forallb_forall in H1. apply eqb_prop. apply (H1 (r', c')). unfold grid. apply in_prod_iff. rewrite !in_seq. lia.
Qed.
Lemma actions_check : forall k m D,
  forallb (fun p => negb (D (fst p) (snd p)) || (0xA0 <? code_of k m (fst p) (snd p))%N) (grid 0 9) = true -> actions_only k m D.
Proof.
  intros k m D H r c Hr Hc HD. rewrite forallb_forall in H.
  assert (I : In (r, c) (grid 0 9)) by (unfold grid; apply in_prod_iff; rewrite !in_seq; lia).
  specialize (H (r, c) I). cbn [fst snd] in H. rewrite HD in H. cbn [negb orb] in H. lia.
Qed.
Definition chatter (l : list (nat * nat)) (p : nat * nat) (bs : list bool) : list (list (nat * nat)) :=
  map (fun b : bool => if b then p :: l else l) bs.

(** SHIFT and "p" with chattering contacts; the counter of (2, 2) is half way
    down from the start. *)
Example C78_example :
  let none := fun _ _ : nat => false in let sh := set2 none 0 1 true in
  let up := [true; false; true; true; false; false; true] ++ repeat true 8 ++ [false; true] in
  let dn := [false; true; true; false] ++ repeat false 9 in
  let rds := map matrix (chatter [] (0, 1) up) ++ map matrix (chatter [(0, 1)] (1, 1) up) ++ map matrix (chatter [(0, 1)] (1, 1) dn) ++
             map matrix (chatter [] (0, 1) dn) ++ [] in
  obs (fun s => (k_cur s, count s 2 2, (k_last s, key_queue s, msg_queue s), r_state (k_rep s), modes_of s)) (run (hold 5 [(2, 2)])) =
    Some (0%N, 5, (0xA0%N, [], []), RAuto, mkModes false false false) /\
  obs sent (run (hold 5 [(2, 2)] ++ rds)) = Some [80]%N /\
  bouncing 0 0xA0 none (mkModes false false false) rds [80]%N 0xA0 (set2 sh 0 1 false) (mkModes false false false).
Proof.
  cbv zeta. split; [vm_compute; reflexivity|]. split; [vm_compute; reflexivity|].
  eapply (b_press 0 _ _ _ 0 1 (mkModes false true false)
    ([true; false; true; true; false; false; true] ++ repeat true 8 ++ [false; true]));
    [lia|lia|reflexivity|reflexivity|apply actions_check; vm_compute; reflexivity|apply actions_check; vm_compute; reflexivity|
     apply readings_check; vm_compute; reflexivity|split; apply Nat.leb_le; reflexivity|].
  eapply (b_stroke 0 _ _ (mkModes false true false) 1 1
    ([true; false; true; true; false; false; true] ++ repeat true 8 ++ [false; true]) ([false; true; true; false] ++ repeat false 9));
    [lia|lia|reflexivity|reflexivity|discriminate|apply actions_check; vm_compute; reflexivity|
     apply readings_check; vm_compute; reflexivity|split; apply Nat.leb_le; reflexivity|
     apply readings_check; vm_compute; reflexivity|split; apply Nat.leb_le; reflexivity|apply Nat.leb_le; reflexivity|].
  eapply (b_release 0 _ _ _ 0 1 (mkModes false false false)
    ([false; true; true; false] ++ repeat false 9));
    [lia|lia|reflexivity|reflexivity|apply actions_check; vm_compute; reflexivity|apply actions_check; vm_compute; reflexivity|
     apply readings_check; vm_compute; reflexivity|split; apply Nat.leb_le; reflexivity|].
  apply b_done.
Qed.

(** Left alone with CTRL and the identification key down and the message half
    sent; afterwards "p". *)
Example C79_example :
  let busy := hold 20 [(0, 6); (6, 6)] in
  obs (fun s => (k_cur s, down s 8 4, length (sent s), length (msg_queue s), ctrl_on s)) (run busy) = Some (0%N, false, 10, 76, true) /\
  obs (fun s => (length (sent s), msg_queue s, key_queue s, ctrl_on s, k_last s, r_state (k_rep s))) (run (busy ++ hold 144 [])) =
    Some (86, [], [], false, 0xA0%N, RAuto) /\
  obs (fun s => skipn 86 (sent s)) (run (busy ++ hold 144 [] ++ hold 30 [(1, 1)] ++ hold 10 [])) = Some [112]%N.
Proof. vm_compute. repeat split. Qed.
