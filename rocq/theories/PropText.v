(** What the letter keys type and which characters can be typed: C60, C61. *)
From Coq Require Import List NArith ZArith Arith Bool Lia.
From Coq Require Import ZifyBool ZifyNat ZifyN.
From Verif Require Import Base Lib Buffer BufferSpec BufferProofs Repeat Devices DevSpec DevProofs
     Modifiers Hook KeymapData Asdf KeySpec KeyRef Obs Frames PropModState PropQueues PropDebounce PropHold.
Import ListNotations.

(** ** C60 *)
(** The [i]-th letter in ASCII, i = 0 for A. *)
Definition upper (i : nat) : N := (65 + N.of_nat i)%N.
Definition lower (i : nat) : N := (97 + N.of_nat i)%N.
Definition control (i : nat) : N := (1 + N.of_nat i)%N.
(** Keyboards 1 and 3 have capitals only; on keyboard 3 SHIFT-N is '^' and
    SHIFT-P is '@'. *)
Definition caps_only (k : N) : bool := (k =? 1)%N || (k =? 3)%N.
Definition letter_code (k : N) (i : nat) (ctrl shift caps : bool) : N :=
  if ctrl then control i
  else if (k =? 3)%N && shift && (i =? 13) then 94%N
  else if (k =? 3)%N && shift && (i =? 15) then 64%N
  else if shift || caps || caps_only k then upper i else lower i.

(** The key of a letter is where the plain map has it. *)
Definition letter_key (k : N) (i r c : nat) : Prop :=
  r < 9 /\ c < 8 /\ code_at k 0 r c = if caps_only k then upper i else lower i.

Definition letter_check (k : N) (i r c : nat) : bool :=
  negb (code_at k 0 r c =? if caps_only k then upper i else lower i)%N ||
  forallb (fun ct : bool => forallb (fun sh : bool => forallb (fun ca : bool =>
    (code_at k (if ct then 3 else if sh then 1 else if ca then 2 else 0) r c =? letter_code k i ct sh ca)%N)
    [true; false]) [true; false]) [true; false].
Lemma letter_check_ok : forallb (fun k => forallb (fun i => forallb (fun p => letter_check k i (fst p) (snd p)) (grid 0 9)) (seq 0 26)) [0; 1; 2; 3]%N = true.
Proof. vm_compute. reflexivity. Qed.
Lemma in_bools : forall b : bool, In b [true; false].
Proof. intros []; cbn; auto. Qed.
Lemma in_four : forall k, (k < 4)%N -> In k [0; 1; 2; 3]%N.
Proof. intros k H. cbn. lia. Qed.
Lemma in_grid9 : forall r c, r < 9 -> c < 8 -> In (r, c) (grid 0 9).
Proof. intros. unfold grid. apply in_prod_iff. rewrite !in_seq. lia. Qed.

(** In every reachable state a letter key means its letter: control code while
    CTRL is down, else a capital with SHIFT or CAPS LOCK, else lower case. *)
Theorem C60_letter_code : forall rds s i r c, run rds = Ok s -> (k_cur s < 4)%N -> i < 26 -> letter_key (k_cur s) i r c ->
  key_code s r c = letter_code (k_cur s) i (down s 0 6) (shift_on s) (caps_on s).
Proof.
  intros rds s i r c H Hk Hi (Hr&Hc&HL). rewrite <- (C33_ctrl_iff_key_down _ _ H). unfold key_code, map_in_force.
  pose proof letter_check_ok as F. rewrite forallb_forall in F. specialize (F _ (in_four _ Hk)).
  rewrite forallb_forall in F. specialize (F i ltac:(apply in_seq; lia)).
  rewrite forallb_forall in F. specialize (F _ (in_grid9 r c Hr Hc)). cbn [fst snd] in F. unfold letter_check in F.
  rewrite HL, N.eqb_refl in F. cbn [negb orb] in F.
  rewrite forallb_forall in F. specialize (F _ (in_bools (ctrl_on s))).
  rewrite forallb_forall in F. specialize (F _ (in_bools (shift_on s))).
  rewrite forallb_forall in F. specialize (F _ (in_bools (caps_on s))). apply N.eqb_eq. exact F.
Qed.
Print Assumptions C60_letter_code.

(** Every letter has exactly one key. *)
Theorem C60_one_key_per_letter : forall k i, (k < 4)%N -> i < 26 ->
  exists r c, letter_key k i r c /\ forall r' c', letter_key k i r' c' -> r' = r /\ c' = c.
Proof.
  intros k i Hk Hi.
  assert (F : forallb (fun k => forallb (fun i => existsb (fun p => (code_at k 0 (fst p) (snd p) =? if caps_only k then upper i else lower i)%N &&
      forallb (fun q => negb (code_at k 0 (fst q) (snd q) =? if caps_only k then upper i else lower i)%N || (fst q =? fst p) && (snd q =? snd p)) (grid 0 9))
      (grid 0 9)) (seq 0 26)) [0; 1; 2; 3]%N = true) by (vm_compute; reflexivity).
  rewrite forallb_forall in F. specialize (F _ (in_four _ Hk)).
  rewrite forallb_forall in F. specialize (F i ltac:(apply in_seq; lia)).
  apply existsb_exists in F. destruct F as [[r c] [I F]]. cbn [fst snd] in F. apply andb_true_iff in F. destruct F as [F1 F2].
  unfold grid in I. apply in_prod_iff in I. rewrite !in_seq in I. apply N.eqb_eq in F1.
  exists r, c. split; [unfold letter_key; repeat split; [lia|lia|exact F1]|].
  intros r' c' (Hr&Hc&HL). rewrite forallb_forall in F2. specialize (F2 _ (in_grid9 r' c' Hr Hc)). cbn [fst snd] in F2.
  rewrite HL, N.eqb_refl in F2. cbn [negb orb] in F2. lia.
Qed.
Print Assumptions C60_one_key_per_letter.

(** Typing a letter from rest sends exactly that character. *)
Theorem C60_letter_typed : forall pre s i r c rds, run pre = Ok s -> (k_cur s < 4)%N -> i < 26 -> letter_key (k_cur s) i r c ->
  down s r c = false -> k_last s = 0xA0%N ->
  key_queue s = [] -> msg_queue s = [] -> r_state (k_rep s) = RAuto ->
  others_differ s r c -> others_coded s r c -> Forall (also s r c) rds -> 
  count s r c < length rds <= count s r c + 525 ->
  exists s', ticks rds s = Ok s' /\
    sent s' = sent s ++ [letter_code (k_cur s) i (down s 0 6) (shift_on s) (caps_on s)].
Proof.
  intros pre s i r c rds H Hk Hi HK HD HL HQ HM HR HO HC HA HN. pose proof (C60_letter_code _ _ _ _ _ H Hk Hi HK) as KC.
  assert (LOW : (key_code s r c < 0xA0)%N).
  { rewrite KC. unfold letter_code, upper, lower, control. clear - Hi. repeat match goal with |- context [if ?b then _ else _] => destruct b end; lia. }
  destruct HK as (Hr&Hc&_).
  destruct (C29_hold_from_rest pre s r c rds H Hk Hr Hc HD LOW HL HQ HM HR HO HC HA) as [s' [E [_ S]]].
  exists s'. split; auto. rewrite S, KC. unfold typed.
  replace (length rds <=? count s r c) with false by (clear - HN; lia).
  replace (length rds <=? count s r c + 525) with true by (clear - HN; lia). reflexivity.
Qed.
Print Assumptions C60_letter_typed.

(** 'p' on keyboard 0: plain, with SHIFT, with CTRL; SHIFT-P on keyboard 3. *)
Example C60_example :
  letter_key 0 15 1 1 /\ letter_key 3 15 1 1 /\
  obs sent (run (hold 3 [] ++ hold 12 [(1, 1)])) = Some [112%N] /\
  obs sent (run (hold 12 [(0, 1)] ++ hold 12 [(0, 1); (1, 1)])) = Some [80%N] /\
  obs sent (run (hold 12 [(0, 6)] ++ hold 12 [(0, 6); (1, 1)])) = Some [16%N] /\
  obs sent (run (hold 12 [(8, 0); (8, 1); (0, 1)] ++ hold 12 [(8, 0); (8, 1); (0, 1); (1, 1)])) = Some [64%N] /\
  map (fun f => letter_code 0 15 (fst (fst f)) (snd (fst f)) (snd f)) [(false, false, false); (false, true, false); (true, false, false)] = [112; 80; 16]%N.
Proof. vm_compute. repeat split; auto; lia. Qed.

(** ** C61 *)
(** Readings of keyboard 2 and keyboard 0 with the modifiers of map [m] and one
    more key. *)
Definition with_mods (sw : list (nat * nat)) (m r c : nat) : list (nat -> N) :=
  let mods := if m =? 3 then [(0, 6)] else if m =? 1 then [(0, 1)] else [] in
  hold 12 (mods ++ sw) ++ hold 12 ((r, c) :: mods ++ sw).
(** Keyboard 2 is selected with CAPS LOCK on; key (0, 0) takes it off. *)
Definition type2 (m r c : nat) : list (nat -> N) :=
  hold 12 [(8, 1)] ++ (if m =? 2 then [] else hold 12 [(8, 1); (0, 0)] ++ hold 12 [(8, 1)]) ++ with_mods [(8, 1)] m r c.
Definition type0 (m r c : nat) : list (nat -> N) := with_mods [] m r c.

Definition find_key (k x : N) : option (nat * (nat * nat)) :=
  List.find (fun p => (code_at k (fst p) (fst (snd p)) (snd (snd p)) =? x)%N) (list_prod [0; 1; 3] (grid 0 8)).
Definition can_type (k : N) (f : nat -> nat -> nat -> list (nat -> N)) (x : N) : bool :=
  match find_key k x with
  | Some (m, (r, c)) => match obs (fun s => (k_cur s, sent s)) (run (f m r c)) with
                        | Some (k', [y]) => (k' =? k)%N && (y =? x)%N | _ => false end
  | None => false
  end.
Lemma can_type_run : forall k f x, can_type k f x = true -> exists rds s, run rds = Ok s /\ k_cur s = k /\ sent s = [x].
Proof.
  intros k f x H. unfold can_type in H. destruct (find_key k x) as [[m [r c]]|]; [|discriminate].
  destruct (obs (fun s => (k_cur s, sent s)) (run (f m r c))) as [[k' l]|] eqn:O; [|discriminate].
  destruct l as [|y [|z l]]; [discriminate H| |discriminate H]. apply obs_some in O. destruct O as [s [E O]].
  exists (f m r c), s. apply pair_inj in O. destruct O as [O1 O2]. apply andb_true_iff in H. destruct H as [H1 H2].
  apply N.eqb_eq in H1, H2. rewrite O1, O2, H1, H2. auto.
Qed.
Definition printable (x : N) : Prop := (32 <= x <= 126)%N.
Lemma printable_in : forall x, printable x -> In x (map N.of_nat (seq 32 95)).
Proof. intros x [H1 H2]. apply in_map_iff. exists (N.to_nat x). split; [lia|]. apply in_seq. lia. Qed.

(** Keyboard 2 (Apple II, upper and lower case) can type every printable ASCII
    character, keyboard 0 (classic) every one but '^' and '_'. *)
Theorem C61_keyboard2_types_all_partial : forall x, printable x ->
  exists rds s, run rds = Ok s /\ k_cur s = 2%N /\ sent s = [x].
Proof.
  intros x H. apply (can_type_run 2 type2).
  assert (F : forallb (can_type 2 type2) (map N.of_nat (seq 32 95)) = true) by (vm_compute; reflexivity).
  rewrite forallb_forall in F. apply F. apply printable_in. auto.
Qed.
Print Assumptions C61_keyboard2_types_all_partial.
Theorem C61_keyboard0_types_rest_partial : forall x, printable x -> x <> 94%N -> x <> 95%N ->
  exists rds s, run rds = Ok s /\ k_cur s = 0%N /\ sent s = [x].
Proof.
  intros x H H1 H2. apply (can_type_run 0 type0).
  assert (F : forallb (fun x => can_type 0 type0 x || (x =? 94)%N || (x =? 95)%N) (map N.of_nat (seq 32 95)) = true) by (vm_compute; reflexivity).
  rewrite forallb_forall in F. specialize (F _ (printable_in _ H)).
  destruct (can_type 0 type0 x); auto. cbn [orb] in F. lia.
Qed.
Print Assumptions C61_keyboard0_types_rest_partial.

(** *** Keyboard 0 never sends '^' or '_' *)
Definition Plain (x : N) : Prop := x <> 94%N /\ x <> 95%N.
Definition plainb (x : N) : bool := negb (x =? 94)%N && negb (x =? 95)%N.
Lemma plain_ok : forall x, plainb x = true -> Plain x.
Proof. intros x H. unfold Plain, plainb in *. split; lia. Qed.
Definition plain_codes (k : N) (m r c : nat) (code : N) : bool :=
  if (k =? 0)%N then plainb code && forallb plainb (prints k code) else true.
Lemma plain_codes_ok : all_codes plain_codes = true.
Proof. vm_compute. reflexivity. Qed.
(** The four keymap switches open. *)
Definition maps_open (rd : nat -> N) : Prop := forall c, c < 4 -> reading rd 8 c = false.

Definition PlainInv (a : akb) : Prop :=
  last_low a /\ a_cur a = 0%N /\ (forall c, c < 4 -> a_dn a 8 c = false) /\ (length (a_qm a) <= 128) /\
  Forall Plain (a_qk a) /\ Forall Plain (a_qm a) /\ Forall Plain (sends (rev (a_log a))).

Lemma qput_plain : forall cap c q, Forall Plain q -> Plain c -> Forall Plain (qput cap c q).
Proof. intros cap c q H1 H2. unfold qput. destruct (length q <? cap); auto. apply Forall_app. auto. Qed.
Lemma firstn_plain : forall n l, Forall Plain l -> Forall Plain (firstn n l).
Proof. intros n l H. rewrite <- (firstn_skipn n l) in H. apply Forall_app in H. apply H. Qed.

Lemma plain_inv : forall rds a, Forall maps_open rds -> arun rds = Some a -> PlainInv a.
Proof.
  apply (ainv maps_open).
  - split; [exact (N.le_refl 0xA0)|]. split; [reflexivity|]. split; [reflexivity|].
    split; [exact (Nat.le_0_l 128)|]. split; [exact (Forall_nil _)|]. split; exact (Forall_nil _).
  - intros x (A&B&C&D&E&F&G). unfold PlainInv, last_low. destruct (asend_dn x) as [-> _]. rewrite send_last, send_cur.
    repeat (split; [assumption|]). unfold asend. destruct (a_qm x) as [|m q] eqn:QM.
    + destruct (a_qk x) as [|k q] eqn:QK; [rewrite QM, QK; auto|]. inv E.
      destruct (k <? 0xA0)%N; cbn [a_qm a_qk a_log note put_log put_qk]; rewrite QM; repeat split; auto.
      cbn [rev]. rewrite sends_app. apply Forall_app. split; auto. repeat constructor; apply H1.
    + inv F. cbn [a_qm a_qk a_log note put_log put_qm]. repeat split; auto; [cbn in D; lia|].
      cbn [rev]. rewrite !sends_app. rewrite Forall_app. split; [|repeat constructor; apply H1]. rewrite Forall_app. split; auto. repeat constructor.
  - intros x y H. exact H.
  - intros rd r c x _ (A&B&C&D&E&F&G) Hr Hc Hk _ _.
    pose proof (code_now_check _ plain_codes_ok x r c Hk Hr Hc) as P. unfold plain_codes in P. rewrite B in P. cbn [N.eqb] in P.
    apply andb_true_iff in P. destruct P as [P _]. apply plain_ok in P.
    destruct (held_form (code_now x r c) x A) as [q [-> | ->]]; unfold PlainInv; cbn [a_last a_cur a_dn a_qk a_qm a_log put_rep put_qk];
      repeat (split; [assumption|]); auto. split; [apply qput_plain; auto|auto].
  - intros rd r c x MO (A&B&C&D&E&F&G) Hr Hc Hk HR HD.
    pose proof (code_now_check _ plain_codes_ok x r c Hk Hr Hc) as P. unfold plain_codes in P. rewrite B in P. cbn [N.eqb] in P.
    apply andb_true_iff in P. destruct P as [P PM]. apply plain_ok in P.
    pose proof (code_now_check _ sel_codes_ok x r c Hk Hr Hc) as SC. unfold sel_codes in SC.
    assert (N8 : ~ (r = 8 /\ c < 4)) by (intros [-> HC]; rewrite (MO c HC) in HR; discriminate).
    assert (NS : forall n, decode (code_now x r c) <> AMapsel n).
    { intros n X. rewrite X in SC. pose proof (decode_mapsel _ _ X). apply N8. lia. }
    unfold PlainInv. split; [apply press_last_low; exact A|]. rewrite press_cur by auto. split; [exact B|].
    destruct (apress_dn (code_now x r c) (accept r c true x)) as [-> _].
    split. { intros c' Hc'. cbn [a_dn accept put_dn]. rewrite set2_other; [apply C; auto|]. destruct (Nat.eq_dec r 8); [right; lia|auto]. }
    assert (Q : (length (a_qm (apress (code_now x r c) (accept r c true x))) <= 128) /\
      Forall Plain (a_qk (apress (code_now x r c) (accept r c true x))) /\ Forall Plain (a_qm (apress (code_now x r c) (accept r c true x)))).
    { unfold apress. destruct (0xA0 <? code_now x r c)%N.
      - rewrite on_qk, on_qm_prints by exact D. split; [apply firstn_le_length|]. split; [exact E|]. apply firstn_plain. apply Forall_app. split; [exact F|].
        cbn [a_cur accept put_dn put_ct]. rewrite B. apply Forall_forall. intros y Hy. rewrite forallb_forall in PM. apply plain_ok. auto.
      - cbn zeta. destruct (a_last (accept r c true x) =? code_now x r c)%N; cbn [a_qm a_qk put_qk put_rep put_last];
          (split; [exact D|]); (split; [apply qput_plain; auto|exact F]). }
    destruct Q as (Q0&Q1&Q2). repeat (split; [assumption|]).
    destruct (press_log (code_now x r c) (accept r c true x)) as [l [-> SL]].
    rewrite rev_app_distr, sends_app, (silent_sends (rev l)) by (apply Forall_rev; auto). rewrite app_nil_r. exact G.
  - intros rd r c x MO (A&B&C&D&E&F&G) Hr Hc Hk HR HD.
    pose proof (code_now_check _ sel_codes_ok x r c Hk Hr Hc) as SC. unfold sel_codes in SC.
    assert (N8 : ~ (r = 8 /\ c < 4)) by (intros [-> HC]; rewrite (C c HC) in HD; discriminate).
    assert (NS : forall n, decode (code_now x r c) <> AMapsel n).
    { intros n X. rewrite X in SC. pose proof (decode_mapsel _ _ X). apply N8. lia. }
    unfold PlainInv. split; [apply release_last_low; exact A|]. rewrite release_cur by auto. split; [exact B|].
    destruct (arelease_dn (code_now x r c) (accept r c false x)) as [-> _].
    split. { intros c' Hc'. cbn [a_dn accept put_dn]. rewrite set2_other; [apply C; auto|]. destruct (Nat.eq_dec r 8); [right; lia|auto]. }
    assert (Q : a_qk (arelease (code_now x r c) (accept r c false x)) = a_qk x /\ a_qm (arelease (code_now x r c) (accept r c false x)) = a_qm x).
    { unfold arelease. destruct (0xA0 <? code_now x r c)%N; [rewrite off_qk, off_qm; auto|].
      destruct (a_last (accept r c false x) =? code_now x r c)%N; auto. }
    destruct Q as [-> ->]. repeat (split; [assumption|]).
    destruct (release_log (code_now x r c) (accept r c false x)) as [l [-> SL]].
    rewrite rev_app_distr, sends_app, (silent_sends (rev l)) by (apply Forall_rev; auto). rewrite app_nil_r. exact G.
Qed.

(** Whatever is pressed for however long, with the keymap switches open. *)
Theorem C61_all_printable_refuted : forall rds s, Forall maps_open rds -> run rds = Ok s ->
  k_cur s = 0%N /\ ~ In 94%N (sent s) /\ ~ In 95%N (sent s).
Proof.
  intros rds s HF H. destruct (reach _ _ H) as [a [A RL]]. destruct (plain_inv _ _ HF A) as (_&B&_&_&_&_&G).
  rewrite (rl_cur _ _ RL), (sent_ok _ _ RL). rewrite Forall_forall in G. split; auto.
  split; intros I; destruct (G _ I); congruence.
Qed.
Print Assumptions C61_all_printable_refuted.

Example C61_example :
  obs sent (run (type2 1 5 4)) = Some [64%N] /\ obs sent (run (type0 1 0 7)) = Some [124%N] /\
  (exists s, run (type0 1 0 7) = Ok s) /\ forallb (fun rd => forallb (fun c => negb (reading rd 8 c)) (seq 0 4)) (type0 1 0 7) = true.
Proof.
  split; [vm_compute; reflexivity|]. split; [vm_compute; reflexivity|]. split; [|vm_compute; reflexivity].
  destruct (run (type0 1 0 7)) eqn:E; [eauto|]. exfalso.
  assert (X : obs sent (run (type0 1 0 7)) = Some [124%N]) by (vm_compute; reflexivity). rewrite E in X. discriminate.
Qed.
