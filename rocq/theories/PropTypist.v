(** Any text can be typed, and the host receives it: C73. *)
From Coq Require Import List NArith ZArith Arith Bool Lia.
From Coq Require Import ZifyBool ZifyNat ZifyN.
From Verif Require Import Base Lib Buffer BufferSpec BufferProofs Repeat Devices DevSpec DevProofs
     Modifiers Hook KeymapData Asdf KeySpec KeyRef Obs Frames PropModState PropQueues PropHold PropTyping.
From Verif Require Avr Arch328p Arch2560 PropArch328 PropArch2560 PropHost328 PropHost2560.
From Verif Require Import Host PropHost.
Import ListNotations.

(** The characters of keyboard [k]: the classic keyboards lack 30, 31, '^', '_';
    the Apple keyboards lack 0 and 28 to 31; keyboards 1 and 3 also lack small
    letters. *)
Definition alphabet (k x : N) : bool :=
  ((x <? 128) &&
   (if (k <? 2) then negb ((x =? 30) || (x =? 31) || (x =? 94) || (x =? 95))
    else negb ((x =? 0) || (28 <=? x) && (x <=? 31))) &&
   negb (N.odd k && (97 <=? x) && (x <=? 122)))%N.

(** Switch setting of keyboard [k]: the keymap switches in binary, all others
    open. *)
Definition setting (k : N) (c : nat) : bool := N.testbit k (N.of_nat c).
Definition set_to (k : N) (rd : nat -> N) : Prop := forall c, c < 8 -> reading rd 8 c = setting k c.

(** *** Readings from sets of keys *)
Definition closing (D : nat -> nat -> bool) : nat -> N :=
  fun r => fold_right (fun c acc => if D r c then N.setbit acc (N.of_nat c) else acc) 0%N (seq 0 8).
Lemma closing_bit : forall (D : nat -> nat -> bool) l r c, N.testbit (fold_right (fun c acc => if (D r c : bool) then N.setbit acc (N.of_nat c) else acc) 0%N l) (N.of_nat c) =
  existsb (Nat.eqb c) l && D r c.
Proof.
  intros D l r c. induction l as [|x l IH]; [reflexivity|]. cbn [fold_right existsb].
  destruct (Nat.eqb_spec c x) as [->|Hn]; cbn [orb andb].
  - destruct (D r x) eqn:E; [apply N.setbit_eq|]. rewrite IH. apply andb_false_r.
  - destruct (D r x); auto. rewrite N.setbit_neq by lia. exact IH.
Qed.
Lemma closing_shows : forall D, shows D (closing D).
Proof.
  intros D r c Hr Hc. unfold reading, closing. rewrite closing_bit.
  assert (X : existsb (Nat.eqb c) (seq 0 8) = true).
  { apply existsb_exists. exists c. split; [apply in_seq; lia|apply Nat.eqb_refl]. }
  rewrite X. reflexivity.
Qed.
Lemma shows_repeat : forall D n, Forall (shows D) (repeat (closing D) n).
Proof. intros D n. apply Forall_forall. intros rd H. apply repeat_spec in H. subst rd. apply closing_shows. Qed.

(** *** The resting position *)
Definition plain_modes : modes := mkModes false false false.
Definition switches_only (k : N) (r c : nat) : bool := (r =? 8) && setting k c.
Definition home (k : N) (s : kb) : Prop :=
  at_rest s /\ k_cur s = k /\ modes_of s = plain_modes /\
  forall r c, r < 9 -> c < 8 -> down s r c = switches_only k r c.

Definition start (k : N) : list (nat -> N) :=
  repeat (closing (switches_only k)) 12 ++
  (if (k =? 2)%N then repeat (closing (set2 (switches_only k) 0 0 true)) 12 ++ repeat (closing (switches_only k)) 12 else []).

Definition homeb (k : N) (s : kb) : bool :=
  ((k_last s =? 0xA0)%N && (length (key_queue s) =? 0) && (length (msg_queue s) =? 0) &&
   (match r_state (k_rep s) with RAuto => true | _ => false end)) && (k_cur s =? k)%N &&
   (negb (ctrl_on s) && negb (shift_on s) && negb (caps_on s)) &&
   forallb (fun p => (count s (fst p) (snd p) =? 10) && Bool.eqb (down s (fst p) (snd p)) (switches_only k (fst p) (snd p))) (grid 0 9).
Lemma homeb_ok : forall k s, homeb k s = true -> home k s.
Proof.
  intros k s H. unfold homeb in H. apply andb_prop in H. destruct H as [H F]. apply andb_prop in H. destruct H as [H M].
  apply andb_prop in H. destruct H as [H K]. apply andb_prop in H. destruct H as [H R]. apply andb_prop in H. destruct H as [H Q2].
  apply andb_prop in H. destruct H as [L Q1]. apply andb_prop in M. destruct M as [M M3]. apply andb_prop in M. destruct M as [M1 M2].
  assert (G : forall r c, r < 9 -> c < 8 -> count s r c = 10 /\ down s r c = switches_only k r c).
  { intros r c Hr Hc. rewrite forallb_forall in F.
    assert (I : In (r, c) (grid 0 9)) by (unfold grid; apply in_prod_iff; rewrite !in_seq; lia).
    specialize (F _ I). cbn [fst snd] in F. apply andb_prop in F. destruct F as [F1 F2].
    split; [apply Nat.eqb_eq; auto|apply eqb_prop; auto]. }
  split; [|split; [apply N.eqb_eq; auto|split]].
  - split; [apply N.eqb_eq; auto|]. split; [destruct (key_queue s); [auto|discriminate Q1]|].
    split; [destruct (msg_queue s); [auto|discriminate Q2]|].
    split; [destruct (r_state (k_rep s)); first [reflexivity|discriminate R]|]. intros. apply G; auto.
  - unfold modes_of, plain_modes. destruct (ctrl_on s); [discriminate M1|]. destruct (shift_on s); [discriminate M2|].
    destruct (caps_on s); [discriminate M3|]. reflexivity.
  - intros. apply G; auto.
Qed.

Definition no_time (e : event) : bool := match e with EvDelayMs _ | EvPulseLong => false | _ => true end.
Lemma start_home : forall k, (k < 4)%N -> exists s, run (start k) = Ok s /\ home k s /\ sent s = [] /\ Forall timeless (events s).
Proof.
  intros k Hk.
  assert (X : obs (fun s => (homeb k s, sent s, forallb no_time (events s))) (run (start k)) = Some (true, [], true))
    by (kcases k; first [lia | vm_compute; reflexivity]).
  apply obs_some in X. destruct X as [s [E X]]. exists s. split; [exact E|]. clear E.
  split; [apply homeb_ok; congruence|]. split; [congruence|]. assert (Y : forallb no_time (events s) = true) by congruence. clear X.
  apply Forall_forall. intros e IN. rewrite forallb_forall in Y. specialize (Y e IN). destruct e; cbn in Y |- *; auto; discriminate Y.
Qed.

(** *** One character *)
(** Where the character is: with neither modifier, with SHIFT, with CTRL. *)
Definition with_modes (m : nat) : modes := if m =? 3 then mkModes true false false else if m =? 1 then mkModes false true false else plain_modes.
Definition mod_key (m : nat) : nat * nat := if m =? 3 then (0, 6) else (0, 1).

Definition find_char (k x : N) : option (nat * (nat * nat)) :=
  List.find (fun p => (code_at k (fst p) (fst (snd p)) (snd (snd p)) =? x)%N) (list_prod [0; 1; 3] (grid 0 8)).
Lemma alphabet_found : forall k x, (k < 4)%N -> alphabet k x = true -> exists m r c,
  (m = 0 \/ m = 1 \/ m = 3) /\ r < 8 /\ c < 8 /\ code_at k m r c = x.
Proof.
  intros k x Hk H.
  assert (X : find_char k x <> None).
  { assert (F : forallb (fun x => negb (alphabet k x) || match find_char k x with Some _ => true | None => false end) (map N.of_nat (seq 0 128)) = true)
      by (kcases k; first [lia | vm_compute; reflexivity]).
    rewrite forallb_forall in F. specialize (F x).
    assert (I : In x (map N.of_nat (seq 0 128))).
    { apply in_map_iff. exists (N.to_nat x). rewrite in_seq. unfold alphabet in H. lia. }
    specialize (F I). rewrite H in F. cbn [negb orb] in F. destruct (find_char k x); [discriminate|discriminate F]. }
  destruct (find_char k x) as [[m [r c]]|] eqn:E; [|congruence]. unfold find_char in E. apply find_some in E.
  destruct E as [I E]. cbn [fst snd] in E. apply in_prod_iff in I. destruct I as [I1 I2]. unfold grid in I2. apply in_prod_iff in I2.
  rewrite !in_seq in I2. exists m, r, c. split; [cbn [In] in I1; lia|]. split; [lia|]. split; [lia|]. apply N.eqb_eq. auto.
Qed.

(** The switches and the modifier keys carry action codes in every map. *)
Definition held_codes (k : N) (m r c : nat) (code : N) : bool :=
  negb (switches_only k r c || (r =? 0) && ((c =? 1) || (c =? 6))) || (0xA0 <? code)%N.
Lemma held_codes_ok : all_codes held_codes = true.
Proof. vm_compute. reflexivity. Qed.
Lemma mod_codes_ok : all_codes (fun k m r c code =>
  if (r =? 0) && (c =? 1) then (code =? 0xA1)%N else if (r =? 0) && (c =? 6) then (code =? 0xA5)%N else true) = true.
Proof. vm_compute. reflexivity. Qed.

Lemma map_of_lt : forall m, map_of m < 4.
Proof. intros [[] [] []]; cbn; lia. Qed.

Lemma shift_code : forall k m, (k < 4)%N -> decode (code_of k m 0 1) = AShift.
Proof.
  intros k m Hk. unfold code_of. pose proof (codes_check _ mod_codes_ok k (map_of m) 0 1 Hk (map_of_lt m) ltac:(lia) ltac:(lia)) as X.
  change (code_at k (map_of m) 0 1 =? 0xA1 = true)%N in X. apply N.eqb_eq in X. rewrite X. reflexivity.
Qed.
Lemma ctrl_code : forall k m, (k < 4)%N -> decode (code_of k m 0 6) = ACtrl.
Proof.
  intros k m Hk. unfold code_of. pose proof (codes_check _ mod_codes_ok k (map_of m) 0 6 Hk (map_of_lt m) ltac:(lia) ltac:(lia)) as X.
  change (code_at k (map_of m) 0 6 =? 0xA5 = true)%N in X. apply N.eqb_eq in X. rewrite X. reflexivity.
Qed.

(** A set of switches and modifier keys. *)
Definition quiet (k : N) (D : nat -> nat -> bool) : Prop :=
  forall r c, r < 9 -> c < 8 -> D r c = true -> switches_only k r c || (r =? 0) && ((c =? 1) || (c =? 6)) = true.
Lemma quiet_free : forall k D m x, (k < 4)%N -> quiet k D -> (x <= 0xA0)%N -> free_of k m D x.
Proof.
  intros k D m x Hk Q Hx r c Hr Hc HD E. specialize (Q r c Hr Hc HD).
  pose proof (codes_check _ held_codes_ok k (map_of m) r c Hk (map_of_lt m) Hr Hc) as X. unfold held_codes in X. rewrite Q in X.
  cbn [negb orb] in X. unfold code_of in E. lia.
Qed.
Lemma quiet_set : forall k D r c b, quiet k D -> (b = true -> r = 0 /\ (c = 1 \/ c = 6)) -> quiet k (set2 D r c b).
Proof.
  intros k D r c b Q H r' c' Hr Hc E. unfold set2 in E. destruct (Nat.eqb_spec r' r), (Nat.eqb_spec c' c); cbn [andb] in E; auto.
  subst r' c'. destruct (H E) as [-> [-> | ->]]; destruct (switches_only k 0 _); reflexivity.
Qed.
Lemma quiet_up : forall k D m r c, (k < 4)%N -> quiet k D -> r < 9 -> c < 8 -> (code_of k m r c < 0xA0)%N -> D r c = false.
Proof.
  intros k D m r c Hk Q Hr Hc HC. destruct (D r c) eqn:E; auto. exfalso.
  apply (quiet_free k D m (code_of k m r c) Hk Q ltac:(lia) r c); auto.
Qed.

(** Press for twelve ticks, release for ten. *)
Definition tap (D : nat -> nat -> bool) (r c : nat) : list (nat -> N) :=
  repeat (closing (set2 D r c true)) 12 ++ repeat (closing D) 10.
Definition type_char (D : nat -> nat -> bool) (m r c : nat) : list (nat -> N) :=
  if m =? 0 then tap D r c
  else let D1 := set2 D (fst (mod_key m)) (snd (mod_key m)) true in
       repeat (closing D1) 10 ++ tap D1 r c ++ repeat (closing (set2 D1 (fst (mod_key m)) (snd (mod_key m)) false)) 10.

Lemma tap_session : forall k D m r c rds o D' m', (k < 4)%N -> quiet k D -> r < 9 -> c < 8 -> (code_of k m r c < 0xA0)%N ->
  session k D m rds o D' m' -> session k D m (tap D r c ++ rds) (code_of k m r c :: o) D' m'.
Proof.
  intros k D m r c rds o D' m' Hk Q Hr Hc HC SS. unfold tap. rewrite <- app_assoc.
  change (code_of k m r c :: o) with (repeat (code_of k m r c) (typed 10 (S (length (repeat (closing (set2 D r c true)) 12)))) ++ o).
  apply s_stroke; [exact Hr|exact Hc| |exact HC| | | | | | |exact SS].
  - apply (quiet_up k D m); auto.
  - apply quiet_free; auto. lia.
  - apply quiet_free; auto. lia.
  - apply shows_repeat.
  - rewrite repeat_length. lia.
  - apply shows_repeat.
  - apply repeat_length.
Qed.

Lemma char_session : forall k D m r c, (k < 4)%N -> quiet k D -> D 0 1 = false -> D 0 6 = false ->
  m = 0 \/ m = 1 \/ m = 3 -> r < 9 -> c < 8 -> (code_at k m r c < 0xA0)%N ->
  exists D', session k D plain_modes (type_char D m r c) [code_at k m r c] D' plain_modes /\ forall r c, D' r c = D r c.
Proof.
  intros k D m r c Hk Q D1 D6 Hm Hr Hc HC.
  assert (Hm' : m = 0 \/ m <> 0) by lia. destruct Hm' as [-> | Hm0].
  - exists D. split; auto. rewrite <- (app_nil_r (type_char D 0 r c)). apply (tap_session k D plain_modes r c [] []); auto. apply s_done.
  - assert (ME : exists mr mc md, mod_key m = (mr, mc) /\ md = with_modes m /\ map_of md = m /\ mr = 0 /\ (mc = 1 \/ mc = 6) /\ D mr mc = false /\
      mod_press (decode (code_of k plain_modes mr mc)) plain_modes = Some md /\
      mod_release (decode (code_of k md mr mc)) md = Some plain_modes).
    { destruct Hm as [Hm|[Hm|Hm]]; [lia| |]; subst m.
      - exists 0, 1, (mkModes false true false). repeat (split; [auto; fail|]). rewrite !shift_code by auto. auto.
      - exists 0, 6, (mkModes true false false). repeat (split; [auto; fail|]). rewrite !ctrl_code by auto. auto. }
    destruct ME as (mr&mc&md&MK&_&MM&MR&MC&MD&MP&MU).
    exists (set2 (set2 D mr mc true) mr mc false). split; [|intros; apply set2_back; auto].
    unfold type_char. replace (m =? 0) with false by lia. cbv zeta. rewrite MK. cbn [fst snd].
    assert (Q1 : quiet k (set2 D mr mc true)) by (apply quiet_set; auto).
    assert (Q2 : quiet k (set2 (set2 D mr mc true) mr mc false)) by (apply quiet_set; auto; discriminate).
    apply (s_press k D plain_modes mr mc md); auto; try lia.
    + apply quiet_free; auto. lia.
    + apply quiet_free; auto. lia.
    + apply shows_repeat.
    + replace (code_at k m r c) with (code_of k md r c) by (unfold code_of; rewrite MM; auto).
      apply tap_session; auto; [unfold code_of; rewrite MM; auto|].
      rewrite <- (app_nil_r (repeat _ 10)). apply (s_release k _ md mr mc plain_modes); auto; try lia.
      * apply set2_at.
      * apply quiet_free; auto. lia.
      * apply quiet_free; auto. lia.
      * apply shows_repeat.
      * apply s_done.
Qed.

(** The switches are left alone. *)
Lemma closing_set_to : forall k D n, (forall c, c < 8 -> D 8 c = setting k c) -> Forall (set_to k) (repeat (closing D) n).
Proof.
  intros k D n H. apply Forall_forall. intros rd IN. apply repeat_spec in IN. subst rd. intros c Hc.
  rewrite (closing_shows D) by (auto; lia). auto.
Qed.
Lemma set2_row8 : forall k D r c b, (forall c, c < 8 -> D 8 c = setting k c) -> r < 8 ->
  forall c', c' < 8 -> set2 D r c b 8 c' = setting k c'.
Proof. intros k D r c b H Hr c' Hc'. rewrite set2_off by lia. auto. Qed.
Lemma type_char_set_to : forall k D m r c, (forall c, c < 8 -> D 8 c = setting k c) -> r < 8 -> Forall (set_to k) (type_char D m r c).
Proof.
  intros k D m r c H Hr. unfold type_char, tap. assert (MR : fst (mod_key m) < 8) by (unfold mod_key; destruct (m =? 3); cbn; lia).
  destruct (m =? 0).
  - apply Forall_app. split; apply closing_set_to; [apply set2_row8; auto|auto].
  - cbv zeta. repeat (apply Forall_app; split); apply closing_set_to; repeat (apply set2_row8; auto).
Qed.

Lemma type_one : forall k pre s x, (k < 4)%N -> run pre = Ok s -> home k s -> alphabet k x = true ->
  exists rds s', run (pre ++ rds) = Ok s' /\ home k s' /\ sent s' = sent s ++ [x] /\ Forall (set_to k) rds /\
    length rds <= 42 /\ exists l, events s' = events s ++ l /\ Forall timeless l.
Proof.
  intros k pre s x Hk H (HR&HK&HM&HD) HA. destruct (alphabet_found k x Hk HA) as (m&r&c&Hm&Hr&Hc&E).
  assert (LOW : (x < 0xA0)%N) by (unfold alphabet in HA; lia).
  assert (Q : quiet k (down s)).
  { intros r' c' Hr' Hc' E'. rewrite HD in E' by auto. rewrite E'. reflexivity. }
  destruct (char_session k (down s) m r c) as (D'&S&ED); auto; try lia.
  { rewrite HD by lia. reflexivity. }
  { rewrite HD by lia. reflexivity. }
  rewrite <- HM in S at 1. rewrite <- HK in S. rewrite E in S || (rewrite HK in S; rewrite E in S; rewrite <- HK in S).
  destruct (session_run pre s _ _ _ _ H ltac:(rewrite HK; auto) HR S) as (s'&l&T&EV&SL&IL&HR'&HK'&HM'&HD').
  assert (SN : sent s' = sent s ++ [x]) by (unfold sent; rewrite EV, sends_app, SL; reflexivity).
  exists (type_char (down s) m r c), s'. split; [rewrite run_app, H, bind_Ok; exact T|]. split.
  { split; [exact HR'|]. split; [congruence|]. split; [exact HM'|]. intros r' c' Hr' Hc'. rewrite HD', ED by auto. auto. }
  split; [exact SN|]. split; [apply type_char_set_to; [|lia]; intros c' Hc'; rewrite HD by lia; reflexivity|].
  split; [|exists l; split; [exact EV|apply instant_timeless; exact IL]].
  unfold type_char, tap. destruct (m =? 0); rewrite ?app_length, !repeat_length; lia.
Qed.

Lemma type_all : forall k, (k < 4)%N -> forall text, Forall (fun x => alphabet k x = true) text ->
  exists rds s, run rds = Ok s /\ home k s /\ sent s = text /\ Forall (set_to k) rds /\
    length rds <= 36 + 42 * length text /\ Forall timeless (events s).
Proof.
  intros k Hk text. induction text as [|x text IH] using rev_ind; intros HF.
  - destruct (start_home k Hk) as (s&E&HH&HS&HI). exists (start k), s. split; [exact E|]. split; [exact HH|]. split; [exact HS|].
    split; [|split; [unfold start; destruct (k =? 2)%N; cbn; lia|exact HI]].
    unfold start. assert (X : forall c, c < 8 -> switches_only k 8 c = setting k c) by reflexivity.
    apply Forall_app. split; [apply closing_set_to; auto|]. destruct (k =? 2)%N; [|constructor].
    apply Forall_app. split; apply closing_set_to; [apply set2_row8; [exact X|lia]|exact X].
  - apply Forall_app in HF. destruct HF as [HF HX]. inv HX. destruct (IH HF) as (rds&s&E&HH&HS&HT&HL&HI).
    destruct (type_one k rds s x Hk E HH H1) as (rds'&s'&E'&HH'&HS'&HT'&HL'&l&EV&IL).
    exists (rds ++ rds'), s'. split; [exact E'|]. split; [exact HH'|]. split; [rewrite HS'; congruence|].
    split; [apply Forall_app; auto|]. split; [rewrite !app_length; cbn [length]; lia|]. rewrite EV. apply Forall_app. auto.
Qed.

(** The first call of every run initialises the board. *)
Lemma run_starts : forall rds s, run rds = Ok s -> exists l, events s = EvArchInit :: l.
Proof.
  intros rds s H. destruct (reach _ _ H) as [a [A RL]]. rewrite (events_ok _ _ RL).
  assert (G : exists l, a_log a = l ++ [EvArchInit]).
  { revert A. apply (ainvariant (fun _ => True) (fun a => exists l, a_log a = l ++ [EvArchInit])).
    - exists []. reflexivity.
    - intros x [l L]. unfold asend. destruct (a_qm x) as [|n q]; [|exists (EvSend n :: EvDelayMs 40 :: l); cbn; rewrite L; reflexivity].
      destruct (a_qk x) as [|n q]; [exists l; exact L|]. destruct (n <? 0xA0)%N; [exists (EvSend n :: l)|exists l]; cbn; rewrite L; reflexivity.
    - intros rd r c x y _ [l L] _ _ _ K. destruct K; try (exists l; exact L).
      + unfold aheld. destruct (_ =? _)%N; [|exists l; exact L]. destruct (repeat_tick _) as [[|] q]; [|exists l; exact L].
        destruct (press_log (code_now x r c) (put_rep q x)) as [l1 [L1 _]]. exists (l1 ++ l). rewrite L1, <- app_assoc, <- L. reflexivity.
      + destruct (press_log (code_now x r c) (accept r c true x)) as [l1 [L1 _]]. exists (l1 ++ l). rewrite L1, <- app_assoc, <- L. reflexivity.
      + destruct (release_log (code_now x r c) (accept r c false x)) as [l1 [L1 _]]. exists (l1 ++ l). rewrite L1, <- app_assoc, <- L. reflexivity.
    - apply True_all. }
  destruct G as [l ->]. rewrite rev_app_distr. exists (rev l). reflexivity.
Qed.

(** Every text over the keyboard's characters can be typed, with the switches
    untouched, and a host latching the data lines on either edge of the strobe of
    either board receives exactly that text. *)
Theorem C73_any_text : forall k text, (k < 4)%N -> Forall (fun x => alphabet k x = true) text ->
  exists rds s, run rds = Ok s /\ k_cur s = k /\ Forall (set_to k) rds /\ at_rest s /\ sent s = text /\
  (exists l, events s = EvArchInit :: l) /\
  (forall rise ser x h0 l, Avr.at_reset h0 -> events s = EvArchInit :: PropHost328.calls l ->
     latched rise Avr.PB 6 Avr.PD (Avr.hist (Arch328p.steps (PropArch328.mk false ser x) (Arch328p.OCall EvArchInit :: l) h0)) = map lines_of text) /\
  (forall rise x h0 l, Avr.at_reset h0 -> events s = EvArchInit :: PropHost2560.calls l ->
     latched rise Avr.PB 4 Avr.PH (Avr.hist (Arch2560.steps (PropArch2560.mk false x) (Arch2560.OCall EvArchInit :: l) h0)) = map lines_of text).
Proof.
  intros k text Hk HF. destruct (type_all k Hk text HF) as (rds&s&E&(HR&HK&_)&HS&HT&_).
  exists rds, s. split; [exact E|]. split; [exact HK|]. split; [exact HT|]. split; [exact HR|]. split; [exact HS|].
  split; [apply (run_starts rds); exact E|].
  assert (ST : Forall (still false) rds).
  { eapply Forall_impl; [|exact HT]. intros rd H. split; [rewrite H by lia|rewrite H by lia]; clear -Hk; kcases k; first [lia|reflexivity]. }
  destruct (C56_host_gets_sent_partial false rds s E ST) as [A B]. rewrite HS in A, B. split; auto.
Qed.
Print Assumptions C73_any_text.

(** "Hi!" followed by control-G on keyboard 2. *)
Example C73_example :
  forallb (alphabet 2) [72; 105; 33; 7]%N = true /\
  map (find_char 2) [72; 105; 33; 7]%N = [Some (1, (3, 3)); Some (0, (4, 1)); Some (1, (7, 7)); Some (3, (3, 4))] /\
  let D := switches_only 2 in
  obs (fun s => (k_cur s, sent s)) (run (start 2 ++ type_char D 1 3 3 ++ type_char D 0 4 1 ++ type_char D 1 7 7 ++ type_char D 3 3 4)) =
    Some (2, [72; 105; 33; 7])%N.
Proof. vm_compute. auto. Qed.
