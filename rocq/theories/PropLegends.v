(** The six shipped keymaps, each built alone: what the keys type under the
    modes (C123), and which texts can be typed (C124). *)
From Coq Require Import List NArith ZArith Arith Bool Lia.
From Coq Require Import ZifyBool ZifyNat ZifyN.
From Verif Require Import Base Lib Buffer Repeat Devices Modifiers Hook KeymapData Asdf KeySpec KeyRef Obs PropDebounce
     Custom PropCustom PropEvents PropFlow PropExact PropSession.
Import ListNotations.

(** ** Specification *)

(** The firmware with shipped keymap [k] (keymap_list.cmake: 0 classic, 1 classic
    caps, 2 Apple II, 3 Apple II caps, 4 Sol-20, 5 ACE 1000) as its only one. *)
Definition sole (k : N) : N -> option (list setup_cmd) := choice (fun i => if (i =? 0)%N then Some k else None).
Definition height (k : N) : nat := if (k =? 4)%N then 13 else if (k =? 5)%N then 10 else 9.
(** More generally any choice of up to four shipped keymaps of one size [R], for
    DIP switches 0 to 3. *)
Definition alike (pick : N -> option N) (R : nat) : Prop :=
  (exists k, pick 0%N = Some k) /\ forall i k, pick i = Some k -> (i < 4)%N /\ (k < 6)%N /\ height k = R.

(** The key without modes. *)
Definition no_modes : setting := mkSetting 0 false false false false.
Definition face (k : N) (r c : nat) : N := code_in (sole k) no_modes r c.

Local Open Scope N_scope.
Definition small (p : N) : bool := (97 <=? p) && (p <=? 122).
Definition big (p : N) : bool := (65 <=? p) && (p <=? 90).
Definition capital (p : N) : N := if small p then p - 32 else p.
(** Control code: the low five bits. *)
Definition ctrl_code (p : N) : N := p mod 32.

(** Bit pairing: SHIFT inverts bit 4 of the codes from 0x21 to 0x3F and bit 5 of
    those from 0x40 on. *)
Definition bit_paired (p : N) : N :=
  if (33 <=? p) && (p <=? 63) then N.lxor p 16 else if (64 <=? p) && (p <=? 94) then N.lxor p 32 else p.
(** Typewriter pairing, on the ACE 1000: the characters in ASCII order
    ' , - . / 0 1 2 3 4 5 6 7 8 9 ; = [ { and what is above them. *)
Definition above : list (N * N) :=
  [(39, 34); (44, 60); (45, 95); (46, 62); (47, 63); (48, 41); (49, 33); (50, 64); (51, 35); (52, 36); (53, 37);
   (54, 94); (55, 38); (56, 42); (57, 40); (59, 58); (61, 43); (91, 93); (123, 125)].
Definition assoc (l : list (N * N)) (p : N) : N :=
  match List.find (fun q => fst q =? p) l with Some q => snd q | None => p end.
(** Under CTRL the Apple keyboards have the characters that lack a key of their
    own: , - . / 1 2 6 7 8 9 give [ _ ] \ | ~ ^ ` { }, and the left arrow DEL;
    0 3 4 5 are function keys. *)
Definition apple_above : list (N * N) :=
  [(8, 127); (44, 91); (45, 95); (46, 93); (47, 92); (48, 0xC0); (49, 124); (50, 126); (51, 0xB9); (52, 0xBA); (53, 0xBB);
   (54, 94); (55, 96); (56, 123); (57, 125); (58, 0xA0); (59, 0xA0)].
Close Scope N_scope.

Definition is_key (r c r0 c0 : nat) : bool := (r =? r0) && (c =? c0).

(** SHIFT, by the face of the key. *)
Definition shift_rule (k : N) (r c : nat) (p : N) : N :=
  if small p then capital p
  else match k with
  | 0%N | 1%N => if is_key r c 2 0 then 0xB2%N else if (p =? 48)%N then p else if big p then p else bit_paired p
  | 2%N => if is_key r c 6 2 then 0xB2%N else if is_key r c 5 4 then 64%N else if is_key r c 1 0 then 0xA0%N else
           if (p =? 48)%N then 64%N else bit_paired p
  | 3%N => if is_key r c 6 2 then 0xB2%N else if (p =? 48)%N then 0xA0%N else if (p =? 78)%N then 94%N else if (p =? 80)%N then 64%N
           else if big p then p else bit_paired p
  | 4%N => if 9 <=? r then p
           else if (p =? 48)%N then 32%N else if (p =? 127)%N then 95%N else
           if (existsb (N.eqb p) [58; 59; 91; 92; 93])%N then p else bit_paired p
  | _ => if is_key r c 7 0 then p else assoc above p
  end.

(** CTRL. *)
Definition ctrl_rule (k : N) (r c : nat) (p : N) : N :=
  if small p || big p then ctrl_code p
  else match k with
  | 0%N | 1%N => if is_key r c 2 0 then 0xB1%N else
           if ((49 <=? p) && (p <=? 57))%N then (0xB7 + (p - 49))%N else if (p =? 48)%N then 0xC0%N else
           if (existsb (N.eqb p) [45; 46; 47; 58; 59; 126; 127])%N then 0xA0%N else
           if ((64 <=? p) && (p <=? 93))%N then ctrl_code p else p
  | 2%N | 3%N => if is_key r c 6 2 then 0xB1%N else if is_key r c 5 4 then 0xA6%N else if is_key r c 1 0 then 0xA0%N else assoc apple_above p
  | 4%N => if 9 <=? r then p else if is_key r c 1 6 then 0xB1%N else
           if ((44 <=? p) && (p <=? 63))%N then (p mod 16)%N else if ((64 <=? p) && (p <=? 94))%N then ctrl_code p else p
  | _ => if is_key r c 5 5 then 61%N else if (p =? 91)%N then 29%N else p
  end.

(** CAPS LOCK. *)
Definition caps_rule (k : N) (r c : nat) (p : N) : N :=
  if (k =? 2)%N && is_key r c 5 4 then 0xA6%N else if (k =? 2)%N && is_key r c 1 0 then 0xA0%N else capital p.

Definition rule (k : N) (e : setting) (r c : nat) : N :=
  let p := face k r c in
  if e_ctrl e then ctrl_rule k r c p
  else if e_shift e || e_lock e then shift_rule k r c p
  else if e_caps e then caps_rule k r c p else p.

(** The character codes below 128 that no key of keymap [k] types. *)
Definition lower_case : list N := map N.of_nat (seq 97 26).
Definition keyless (k : N) : list N :=
  match k with
  | 0 => [30; 31; 94; 95]                       (* RS US ^ _ *)
  | 1 => [30; 31; 94; 95] ++ lower_case
  | 2 => [28; 29; 30; 31]                       (* FS GS RS US *)
  | 3 => [28; 29; 30; 31] ++ lower_case
  | 4 => [31; 123; 124; 125]                    (* US { | } *)
  | _ => [28; 30; 31; 92; 96; 124; 126; 127]    (* FS RS US \ ` | ~ DEL *)
  end%N.

(** ** The sole keymap *)
Lemma sole_kb : forall k i, sole k i <> None -> i = 0%N.
Proof. intros k i H. unfold sole, choice in H. destruct (N.eqb_spec i 0); congruence. Qed.
Lemma alike_sound : forall pick R, alike pick R -> sound_firmware R (choice pick).
Proof.
  intros pick R [[k0 E0] H]. split; [unfold choice; rewrite E0; eauto|]. intros i cs E. unfold choice in E.
  destruct (pick i) as [k|] eqn:EP; [|discriminate]. inv E. destruct (H i k EP) as (A&B&<-). split; auto. clear - B.
  kcases k; [apply (sound_b_ok 9 9 8)..|apply (sound_b_ok 13 13 8)|apply (sound_b_ok 10 10 8)]; vm_compute; reflexivity.
Qed.
Lemma alike_size : forall pick R, alike pick R -> same_size R 8 (choice pick).
Proof.
  intros pick R [_ H] i cs mi E HM. unfold choice in E. destruct (pick i) as [k|] eqn:EP; [|discriminate]. inv E.
  destruct (H i k EP) as (_&B&<-). assert (M : mi = 0 \/ mi = 1 \/ mi = 2 \/ mi = 3) by (clear - HM; lia). clear - B M.
  kcases k; destruct M as [-> |[-> |[-> | ->]]]; eexists; reflexivity.
Qed.
Lemma alike_quiet : forall pick R, alike pick R -> scan_hook_free (choice pick).
Proof.
  intros pick R [_ H] i cs f E HI. unfold choice in E. destruct (pick i) as [k|] eqn:EP; [|discriminate]. inv E.
  destruct (H i k EP) as (_&B&_). clear - B HI.
  kcases k; cbn in HI; repeat (destruct HI as [HI|HI]; [discriminate HI|]); contradiction.
Qed.
Lemma sole_alike : forall k, (k < 6)%N -> alike (fun i => if (i =? 0)%N then Some k else None) (height k).
Proof.
  intros k H. split; [exists k; reflexivity|]. intros i j E. destruct (N.eqb_spec i 0); inv E. repeat split; auto.
Qed.
Lemma sole_sound : forall k, (k < 6)%N -> sound_firmware (height k) (sole k).
Proof. intros k H. exact (alike_sound _ _ (sole_alike k H)). Qed.
Lemma sole_size : forall k, (k < 6)%N -> same_size (height k) 8 (sole k).
Proof. intros k H. exact (alike_size _ _ (sole_alike k H)). Qed.
Lemma sole_quiet : forall k, (k < 6)%N -> scan_hook_free (sole k).
Proof. intros k H. exact (alike_quiet _ _ (sole_alike k H)). Qed.

(** ** C123 *)
Definition modes : list setting :=
  flat_map (fun a => flat_map (fun b => flat_map (fun c => map (fun d => mkSetting 0 a b c d) [true; false]) [true; false]) [true; false]) [true; false].
Lemma modes_all : forall e, e_kb e = 0%N -> In e modes.
Proof. intros [k a b c d] H. cbn in H. subst k. destruct a, b, c, d; cbn; auto 20. Qed.
Lemma rule_b : forallb (fun k => forallb (fun e => forallb (fun r => forallb (fun c => (code_in (sole k) e r c =? rule k e r c)%N) (seq 0 8))
  (seq 0 (height k))) modes) [0; 1; 2; 3; 4; 5]%N = true.
Proof. vm_compute. reflexivity. Qed.
Lemma in_six : forall k, (k < 6)%N -> In k [0; 1; 2; 3; 4; 5]%N.
Proof. intros k H. cbn. lia. Qed.
Definition on_0 (e : setting) : setting := mkSetting 0 (e_shift e) (e_lock e) (e_caps e) (e_ctrl e).
Lemma code_sole : forall pick k e r c, pick (e_kb e) = Some k -> code_in (choice pick) e r c = code_in (sole k) (on_0 e) r c.
Proof. intros pick k e r c E. unfold code_in, sole, choice. rewrite E. reflexivity. Qed.
Lemma rule_0 : forall k e r c, rule k (on_0 e) r c = rule k e r c.
Proof. reflexivity. Qed.
Lemma rule_ok : forall pick k e r c, (k < 6)%N -> pick (e_kb e) = Some k -> r < height k -> c < 8 ->
  code_in (choice pick) e r c = rule k e r c.
Proof.
  intros pick k e r c Hk He Hr Hc. rewrite (code_sole pick k) by exact He. rewrite <- rule_0.
  pose proof rule_b as F. rewrite forallb_forall in F. specialize (F k (in_six k Hk)).
  rewrite forallb_forall in F. specialize (F (on_0 e) (modes_all (on_0 e) eq_refl)).
  rewrite forallb_forall in F. specialize (F r ltac:(apply in_seq; lia)).
  rewrite forallb_forall in F. specialize (F c ltac:(apply in_seq; lia)). apply N.eqb_eq. exact F.
Qed.

Lemma session_valid : forall R C pick rds H e out, (exists k, pick 0%N = Some k) -> session R C (choice pick) rds H e out ->
  exists k, pick (e_kb e) = Some k.
Proof.
  intros R C pick rds H e out H0 HS.
  assert (V : choice pick (e_kb e) <> None).
  { induction HS as [| | rds H e out l r c HS IH Hr Hc HM HP HF HL |]; auto.
    - cbn [at_start e_kb]. destruct H0 as [k E]. unfold choice. rewrite E. discriminate.
    - destruct (H r c); cbn [negb after_event]; [apply release_valid|apply press_valid]; exact IH. }
  unfold choice in V. destruct (pick (e_kb e)) as [k|]; [eauto|congruence].
Qed.

(** A key struck in any session types what the rules for the selected keyboard say. *)
Theorem C123_rules : forall pick R rds H e out l l' r c s, alike pick R -> session R 8 (choice pick) rds H e out ->
  exists k, pick (e_kb e) = Some k /\
  (r < R -> c < 8 -> H r c = false -> (rule k e r c < 0xA0)%N ->
   Forall (reads R 8 (set2 H r c true)) l -> 10 <= length l < 535 ->
   Forall (reads R 8 H) l' -> length l' = 10 ->
   c_run (choice pick) (rds ++ l ++ l') = Ok s -> sent s = out ++ [rule k e r c]).
Proof.
  intros pick R rds H e out l l' r c s HA HS. destruct (session_valid _ _ _ _ _ _ _ (proj1 HA) HS) as [k EK]. exists k. split; [exact EK|].
  destruct (proj2 HA _ _ EK) as (_&Hk&HR). intros Hr Hc HH HRU HF HL HF' HL' E.
  pose proof (rule_ok pick k e r c Hk EK ltac:(rewrite HR; exact Hr) Hc) as RO. rewrite <- RO in *.
  rewrite (C105_session R 8 (choice pick) (rds ++ l ++ l') H e (out ++ repeat (code_in (choice pick) e r c) (times (length l))) s);
    eauto using alike_sound, alike_size, alike_quiet.
  - unfold times. replace (length l <? 535) with true by lia. reflexivity.
  - apply session_stroke; auto. clear - HL. lia.
Qed.
Print Assumptions C123_rules.

(** Letters: on every shipped keyboard each letter has exactly one key; it types
    the control code under CTRL, else the capital under SHIFT (but on the Apple II
    caps keyboard SHIFT N is ^ and SHIFT P is @), SHIFT LOCK or CAPS LOCK. *)
Definition face_of (k : N) (i : nat) : N := (N.of_nat i + if (k =? 1) || (k =? 3) then 65 else 97)%N.
Theorem C123_letters : forall k i, (k < 6)%N -> i < 26 ->
  exists r c, r < height k /\ c < 8 /\ face k r c = face_of k i /\
  (forall r' c', r' < height k -> c' < 8 -> face k r' c' = face_of k i -> r' = r /\ c' = c) /\
  forall pick e, pick (e_kb e) = Some k -> code_in (choice pick) e r c =
    if e_ctrl e then (N.of_nat i + 1)%N
    else if e_shift e || e_lock e
      then (if (k =? 3)%N && (i =? 13) then 94%N else if (k =? 3)%N && (i =? 15) then 64%N else (N.of_nat i + 65)%N)
    else if e_caps e then (N.of_nat i + 65)%N else face_of k i.
Proof.
  intros k i Hk Hi.
  set (want := fun k i e => (if e_ctrl e then (N.of_nat i + 1)%N
    else if e_shift e || e_lock e
      then (if (k =? 3)%N && (i =? 13) then 94%N else if (k =? 3)%N && (i =? 15) then 64%N else (N.of_nat i + 65)%N)
    else if e_caps e then (N.of_nat i + 65)%N else face_of k i)).
  assert (F : forallb (fun k => forallb (fun i => existsb (fun p => if (face k (fst p) (snd p) =? face_of k i)%N then
      forallb (fun q => negb (face k (fst q) (snd q) =? face_of k i)%N || (fst q =? fst p) && (snd q =? snd p))
        (list_prod (seq 0 (height k)) (seq 0 8)) &&
      forallb (fun e => (code_in (sole k) e (fst p) (snd p) =? want k i e)%N) modes else false)
      (list_prod (seq 0 (height k)) (seq 0 8))) (seq 0 26)) [0; 1; 2; 3; 4; 5]%N = true) by (vm_compute; reflexivity).
  rewrite forallb_forall in F. specialize (F _ (in_six _ Hk)).
  rewrite forallb_forall in F. specialize (F i ltac:(apply in_seq; lia)).
  apply existsb_exists in F. destruct F as [[r c] [I F]]. cbn [fst snd] in F.
  destruct (face k r c =? face_of k i)%N eqn:F1 in F; [|discriminate].
  apply andb_true_iff in F. destruct F as [F2 F3].
  apply in_prod_iff in I. rewrite !in_seq in I. apply N.eqb_eq in F1.
  exists r, c. split; [lia|]. split; [lia|]. split; [exact F1|]. split.
  - intros r' c' Hr Hc HL. rewrite forallb_forall in F2. specialize (F2 (r', c') ltac:(apply in_prod_iff; rewrite !in_seq; lia)).
    cbn [fst snd] in F2. rewrite HL, N.eqb_refl in F2. cbn [negb orb] in F2. lia.
  - intros pick e He. rewrite (code_sole pick k) by exact He. rewrite forallb_forall in F3. specialize (F3 (on_0 e) (modes_all (on_0 e) eq_refl)). apply N.eqb_eq in F3. exact F3.
Qed.
Print Assumptions C123_letters.

(** No mode moves a mode key: SHIFT, SHIFT LOCK, CAPS LOCK, CTRL and the switches
    of row 8 mean the same under all modes. *)
Theorem C123_modes_in_place : forall pick k e r c, (k < 6)%N -> pick (e_kb e) = Some k -> r < height k -> c < 8 ->
  r = 8 \/ In (face k r c) [0xA1; 0xA2; 0xA3; 0xA4; 0xA5]%N \/ In (code_in (choice pick) e r c) [0xA1; 0xA2; 0xA3; 0xA4; 0xA5]%N ->
  code_in (choice pick) e r c = face k r c.
Proof.
  intros pick k e r c Hk He Hr Hc. rewrite (code_sole pick k) by exact He. intros HX.
  assert (F : forallb (fun k => forallb (fun e => forallb (fun r => forallb (fun c =>
     negb ((r =? 8) || existsb (N.eqb (face k r c)) [0xA1; 0xA2; 0xA3; 0xA4; 0xA5]%N ||
           existsb (N.eqb (code_in (sole k) e r c)) [0xA1; 0xA2; 0xA3; 0xA4; 0xA5]%N) ||
     (code_in (sole k) e r c =? face k r c)%N) (seq 0 8)) (seq 0 (height k))) modes) [0; 1; 2; 3; 4; 5]%N = true) by (vm_compute; reflexivity).
  rewrite forallb_forall in F. specialize (F k (in_six k Hk)).
  rewrite forallb_forall in F. specialize (F (on_0 e) (modes_all (on_0 e) eq_refl)).
  rewrite forallb_forall in F. specialize (F r ltac:(apply in_seq; lia)).
  rewrite forallb_forall in F. specialize (F c ltac:(apply in_seq; lia)).
  assert (EX : forall x l, In x l -> existsb (N.eqb x) l = true).
  { intros x l I. apply existsb_exists. exists x. split; auto. apply N.eqb_refl. }
  apply orb_true_iff in F. destruct F as [F|F]; [|apply N.eqb_eq; exact F].
  apply negb_true_iff in F. apply orb_false_iff in F. destruct F as [F F3]. apply orb_false_iff in F. destruct F as [F1 F2].
  destruct HX as [HX|[HX|HX]]; [lia|rewrite EX in F2 by exact HX; discriminate|rewrite EX in F3 by exact HX; discriminate].
Qed.
Print Assumptions C123_modes_in_place.

(** ** C124 *)

(** Toggling mode keys one after the other. *)
Definition member (L : list (nat * nat)) (r c : nat) : bool := existsb (fun p => is_key r c (fst p) (snd p)) L.
Definition flip (p : nat * nat) (L : list (nat * nat)) : list (nat * nat) :=
  if member L (fst p) (snd p) then filter (fun q => negb (is_key (fst q) (snd q) (fst p) (snd p))) L else p :: L.
Definition one_mode (k : N) (r c : nat) : bool :=
  forallb (fun e => (0xA0 <? code_in (sole k) e r c)%N) modes.
Definition plain_b (x : N) : bool :=
  match decode x with ARepeat | AAutorepeat | AHereIs | AFn _ => false | _ => true end.
Fixpoint toggle (k : N) (ps : list (nat * nat)) (e : setting) (L : list (nat * nat)) : option (setting * list (nat * nat)) :=
  match ps with
  | [] => Some (e, L)
  | p :: t => if (fst p <? height k) && (snd p <? 8) && one_mode k (fst p) (snd p) && plain_b (code_in (sole k) e (fst p) (snd p))
              then toggle k t (after_event (sole k) e (fst p, snd p, negb (member L (fst p) (snd p)))) (flip p L)
              else None
  end.

Lemma is_key_refl : forall r c, is_key r c r c = true.
Proof. intros. unfold is_key. rewrite !Nat.eqb_refl. reflexivity. Qed.
Lemma member_flip : forall p L r c, member (flip p L) r c = set2 (member L) (fst p) (snd p) (negb (member L (fst p) (snd p))) r c.
Proof.
  intros [a b] L r c. unfold flip, set2. cbn [fst snd]. destruct (member L a b) eqn:M; cbn [negb].
  - assert (X : forall l, member (filter (fun q => negb (is_key (fst q) (snd q) a b)) l) r c =
        if (r =? a) && (c =? b) then false else member l r c).
    { induction l as [|[x y] l IH]; cbn [filter member existsb fst snd].
      - destruct ((r =? a) && (c =? b)); reflexivity.
      - unfold member in IH. destruct (is_key x y a b) eqn:K; cbn [negb existsb fst snd].
        + rewrite IH. destruct ((r =? a) && (c =? b)) eqn:Q; auto. unfold is_key in *. destruct ((r =? x) && (c =? y)) eqn:Z; auto. lia.
        + rewrite IH. destruct ((r =? a) && (c =? b)) eqn:Q; auto. unfold is_key in *. destruct ((r =? x) && (c =? y)) eqn:Z; auto. lia. }
    apply X.
  - cbn [member existsb fst snd]. unfold is_key at 1. destruct ((r =? a) && (c =? b)); reflexivity.
Qed.

Lemma matrix_member : forall L r c, c < 8 -> reading (matrix L) r c = member L r c.
Proof.
  induction L as [|[a b] L IH]; intros r c Hc; unfold reading, matrix in *; cbn [fold_right member existsb fst snd].
  - apply N.bits_0.
  - fold (member L r c). rewrite <- (IH r c Hc). unfold is_key. destruct (Nat.eqb_spec a r).
    + rewrite N.setbit_eqb. subst. rewrite Nat.eqb_refl. cbn [andb]. f_equal. lia.
    + replace (r =? a) with false by lia. reflexivity.
Qed.
Lemma reads_hold : forall k L H n, (forall r c, H r c = member L r c) -> Forall (reads (height k) 8 H) (hold n L).
Proof.
  intros k L H n HE. apply Forall_forall. intros rd I. apply repeat_spec in I. subst. intros r c _ Hc. rewrite HE. apply matrix_member; auto.
Qed.
Lemma hold_length : forall n L, length (hold n L) = n.
Proof. intros. apply repeat_length. Qed.

Lemma one_mode_ok : forall k r c, one_mode k r c = true -> mode_key (sole k) r c.
Proof.
  intros k r c H e V. unfold one_mode in H. rewrite forallb_forall in H. specialize (H e (modes_all e (sole_kb _ _ V))). lia.
Qed.
Lemma plain_b_ok : forall x, plain_b x = true -> plain_code x.
Proof. intros x H. unfold plain_b, plain_code in *. destruct (decode x); auto; discriminate. Qed.

Lemma toggles_ok : forall k ps rds H e out L e' L', session (height k) 8 (sole k) rds H e out ->
  (forall r c, H r c = member L r c) -> toggle k ps e L = Some (e', L') ->
  exists rds' H', session (height k) 8 (sole k) rds' H' e' out /\ (forall r c, H' r c = member L' r c).
Proof.
  intros k. induction ps as [|p ps IH]; intros rds H e out L e' L' HS HE HT; cbn [toggle] in HT.
  - inv HT. eauto.
  - destruct ((fst p <? height k) && (snd p <? 8) && one_mode k (fst p) (snd p) && plain_b (code_in (sole k) e (fst p) (snd p))) eqn:G; [|discriminate].
    apply andb_true_iff in G. destruct G as [G G4]. apply andb_true_iff in G. destruct G as [G G3]. apply andb_true_iff in G. destruct G as [G1 G2].
    set (H1 := set2 H (fst p) (snd p) (negb (H (fst p) (snd p)))).
    assert (HE1 : forall r c, H1 r c = member (flip p L) r c).
    { intros r c. unfold H1. rewrite member_flip, HE. unfold set2. destruct ((r =? fst p) && (c =? snd p)); auto. }
    rewrite <- HE in HT.
    apply (IH (rds ++ hold 10 (flip p L)) H1 (after_event (sole k) e (fst p, snd p, negb (H (fst p) (snd p)))) out (flip p L)); auto.
    apply session_mode; auto using one_mode_ok, plain_b_ok, reads_hold, hold_length; lia.
Qed.

(** A way to type [x]: mode keys to toggle before, a key, mode keys to toggle after. *)
Definition outcome_of (k : N) (w : list (nat * nat) * (nat * nat) * list (nat * nat)) : option N :=
  let '(pre, (r, c), post) := w in
  match toggle k pre (at_start (sole k)) [] with
  | Some (e, L) =>
      if (r <? height k) && (c <? 8) && negb (member L r c) && (code_in (sole k) e r c <? 0xA0)%N then
      match toggle k post e L with
      | Some (mkSetting 0 false false ca false, []) =>
          if Bool.eqb ca (e_caps (at_start (sole k))) then Some (code_in (sole k) e r c) else None
      | _ => None
      end else None
  | None => None
  end.

Lemma way_ok : forall k x w rds H out, outcome_of k w = Some x -> session (height k) 8 (sole k) rds H (at_start (sole k)) out ->
  (forall r c, H r c = false) ->
  exists rds' H', session (height k) 8 (sole k) rds' H' (at_start (sole k)) (out ++ [x]) /\ (forall r c, H' r c = false).
Proof.
  intros k x [[pre [r c]] post] rds H out HW HS HE. unfold outcome_of in HW.
  destruct (toggle k pre (at_start (sole k)) []) as [[e L]|] eqn:T1; [|discriminate].
  destruct ((r <? height k) && (c <? 8) && negb (member L r c) && (code_in (sole k) e r c <? 0xA0)%N) eqn:W5; [|discriminate].
  destruct (toggle k post e L) as [[e' L']|] eqn:T2; [|discriminate].
  destruct (toggles_ok k pre rds H _ out [] e L HS) as (rds1&H1&S1&E1); auto.
  apply andb_true_iff in W5. destruct W5 as [W3 W5].
  apply andb_true_iff in W3. destruct W3 as [W1 W3]. apply andb_true_iff in W1. destruct W1 as [W1 W2].
  destruct e' as [kb sh lk ca ct]. destruct kb; [|discriminate]. destruct sh; [discriminate|]. destruct lk; [discriminate|].
  destruct ct; [discriminate|]. destruct L'; [|discriminate].
  destruct (Bool.eqb ca (e_caps (at_start (sole k)))) eqn:W; [|discriminate]. apply eqb_prop in W.
  injection HW as W4.
  assert (S2 : session (height k) 8 (sole k) (rds1 ++ hold 10 ((r, c) :: L) ++ hold 10 L) H1 e (out ++ [x])).
  { replace [x] with (repeat (code_in (sole k) e r c) (times (length (hold 10 ((r, c) :: L))))).
    2:{ rewrite hold_length, W4. reflexivity. }
    apply session_stroke; auto using hold_length, reads_hold; try lia.
    - rewrite E1. destruct (member L r c); [discriminate|reflexivity].
    - apply reads_hold. intros r' c'. cbn [member existsb fst snd]. unfold set2, is_key. rewrite E1.
      destruct ((r' =? r) && (c' =? c)); reflexivity. }
  destruct (toggles_ok k post _ H1 e _ L _ _ S2 E1 T2) as (rds3&H3&S3&E3).
  exists rds3, H3. split; [|exact E3]. replace (at_start (sole k)) with (mkSetting 0 false false ca false); auto.
  unfold at_start in *. cbn [e_caps] in W. rewrite W. reflexivity.
Qed.

Definition key_of (k : N) (x : N) : nat * nat :=
  match List.find (fun p => (face k (fst p) (snd p) =? x)%N) (list_prod (seq 0 (height k)) (seq 0 8)) with
  | Some p => p | None => (0, 0) end.
Definition ways (k : N) : list (list (nat * nat) * (nat * nat) * list (nat * nat)) :=
  let sh := key_of k 0xA1 in let ct := key_of k 0xA5 in let ca := key_of k 0xA4 in
  flat_map (fun p => [([], p, []); ([sh], p, [sh]); ([ct], p, [ct]); ([ca; ca], p, [ca; ca])])
           (list_prod (seq 0 (height k)) (seq 0 8)).
Definition gives (x : N) (o : option N) : bool := match o with Some y => (y =? x)%N | None => false end.
Lemma ways_b : forallb (fun k => let l := map (outcome_of k) (ways k) in
  forallb (fun x => existsb (N.eqb x) (keyless k) || existsb (gives x) l) (map N.of_nat (seq 0 128))) [0; 1; 2; 3; 4; 5]%N = true.
Proof. vm_compute. reflexivity. Qed.

(** Every text over the other 128 codes can be typed. *)
Theorem C124_any_text : forall k text, (k < 6)%N -> Forall (fun x => (x < 128)%N /\ ~ In x (keyless k)) text ->
  exists rds s, c_run (sole k) rds = Ok s /\ sent s = text.
Proof.
  intros k text Hk HF.
  assert (X : exists rds H, session (height k) 8 (sole k) rds H (at_start (sole k)) text /\ forall r c, H r c = false).
  { induction text as [|x text IH] using rev_ind.
    - exists [], (fun _ _ => false). split; [constructor|auto].
    - apply Forall_app in HF. destruct HF as [HF HX]. inv HX. destruct H1 as [L N]. destruct (IH HF) as (rds&H&HS&HE).
      pose proof ways_b as F. rewrite forallb_forall in F. specialize (F k (in_six k Hk)).
      cbv zeta in F. rewrite forallb_forall in F. specialize (F x). rewrite in_map_iff in F.
      specialize (F ltac:(exists (N.to_nat x); split; [apply N2Nat.id|apply in_seq; lia])).
      apply orb_true_iff in F. destruct F as [F|F].
      + apply existsb_exists in F. destruct F as [y [I F]]. apply N.eqb_eq in F. subst y. contradiction.
      + apply existsb_exists in F. destruct F as [o [I F]]. apply in_map_iff in I. destruct I as [w [W _]]. subst o.
        destruct (outcome_of k w) as [y|] eqn:W; [|discriminate]. apply N.eqb_eq in F. subst y.
        exact (way_ok k x w rds H text W HS HE). }
  destruct X as (rds&H&HS&_). destruct (C98_any_keymaps_safe (height k) (sole k) rds (sole_sound k Hk)) as [s E].
  exists rds, s. split; auto. exact (C105_session _ _ _ _ _ _ _ _ (sole_sound k Hk) (sole_size k Hk) (sole_quiet k Hk) HS E).
Qed.
Print Assumptions C124_any_text.

Lemma typed_codes : forall k l e x, e_kb e = 0%N -> In x (typed (sole k) e l) -> exists e' r c, e_kb e' = 0%N /\ x = code_in (sole k) e' r c.
Proof.
  intros k. induction l as [|[[r c] b] l IH]; intros e x He HI; cbn [typed] in HI; [contradiction|].
  cbv zeta in HI. apply in_app_or in HI. destruct HI as [HI|HI].
  - destruct (b && _); [|contradiction]. destruct HI as [<- |[]]. eauto.
  - apply (IH _ x) in HI; auto. apply (sole_kb k). destruct b; cbn [after_event]; [apply press_valid|apply release_valid]; rewrite He; discriminate.
Qed.
Lemma shuffle_in : forall a b l, shuffle a b l -> forall x, In x l -> In x a \/ In x b.
Proof.
  induction 1 as [|a b l y H IH|a b l y H IH]; intros x HI; [contradiction| |]; apply in_app_or in HI; rewrite in_app_iff;
    destruct HI as [HI|HI]; auto; destruct (IH x HI); auto.
Qed.

Lemma codes_b : forallb (fun k => forallb (fun mi => match table_of (setup_of k) mi with
  | Some (m, _, _) => forallb (fun x => negb (existsb (N.eqb x) (keyless k)) && ((x <? 128) || (0xA0 <=? x) || (k =? 4))%N) m
  | None => false end) (seq 0 4)) [0; 1; 2; 3; 4; 5]%N = true.
Proof. vm_compute. reflexivity. Qed.
Lemma zero_keyless : forall k, (k < 6)%N -> existsb (N.eqb 0) (keyless k) = false.
Proof. intros k H. kcases k; reflexivity. Qed.

(** Whatever is done to the keys, nothing else is ever sent, but by a message
    that has it; and codes of 128 and more only by the Sol-20 keymap. *)
Theorem C124_nothing_else : forall k rds s x, (k < 6)%N -> c_run (sole k) rds = Ok s -> In x (sent s) ->
  In x (keyless k) \/ (128 <= x)%N /\ k <> 4%N -> message_char (sole k) x.
Proof.
  intros k rds s x Hk E HI HX.
  destruct (C102_sent (height k) 8 (sole k) rds s (sole_sound k Hk) (sole_size k Hk) E) as (ks&q&ms&F&_&SH&HM).
  destruct (shuffle_in _ _ _ SH x HI) as [I|I]; [|rewrite Forall_forall in HM; auto].
  exfalso. apply filter_In in I. destruct I as [I L].
  destruct (flow_in _ _ _ F x ltac:(apply in_or_app; auto)) as [Z|Z]; [subst x; discriminate L|].
  apply (typed_codes k _ (at_start (sole k))) in Z; [|reflexivity]. destruct Z as (e&r&c&He&EX).
  assert (B : existsb (N.eqb x) (keyless k) = false /\ ((x <? 128) || (0xA0 <=? x) || (k =? 4))%N = true).
  { unfold code_in in EX. rewrite He in EX. cbn [sole choice N.eqb] in EX. unfold sole, choice in EX. cbn [N.eqb] in EX.
    pose proof codes_b as FB. rewrite forallb_forall in FB. specialize (FB k (in_six k Hk)).
    rewrite forallb_forall in FB. specialize (FB (map_in e)). rewrite in_seq in FB.
    assert (MI : map_in e < 4) by (unfold map_in; destruct (e_ctrl e), (e_shift e || e_lock e), (e_caps e); lia).
    specialize (FB ltac:(lia)). destruct (table_of (setup_of k) (map_in e)) as [[[m R] C]|]; [|discriminate].
    destruct (nth_in_or_default (r * C + c) m 0%N) as [I2|I2].
    - rewrite <- EX in I2. rewrite forallb_forall in FB. specialize (FB x I2). apply andb_true_iff in FB. destruct FB as [FB1 FB2].
      split; auto. apply negb_true_iff in FB1. exact FB1.
    - rewrite I2 in EX. subst x. split; [apply zero_keyless; auto|reflexivity]. }
  destruct B as [B1 B2]. destruct HX as [HX|[HX HK]]; [|lia].
  assert (existsb (N.eqb x) (keyless k) = true) by (apply existsb_exists; exists x; split; [auto|apply N.eqb_refl]). congruence.
Qed.
Print Assumptions C124_nothing_else.

(** Not every printable character can be typed on every shipped keymap: with the
    Sol-20 keymap no run at all sends a brace or the bar. *)
Theorem C124_every_character_refuted : forall rds s x, c_run (sole 4) rds = Ok s -> In x [123; 124; 125]%N -> ~ In x (sent s).
Proof.
  intros rds s x E HX HI. assert (M : message_char (sole 4) x).
  { apply (C124_nothing_else 4 rds s x); auto; [reflexivity|]. left. cbn [In keyless]. cbn [In] in HX. tauto. }
  destruct M as (i&cs&id&m&l&A&B&S&I). unfold sole, choice in A. destruct (N.eqb_spec i 0); [|discriminate]. inv A.
  cbn in B. repeat (destruct B as [B|B]; [discriminate B|]). destruct B as [B|[]]. inv B.
  apply shows_format in S. vm_compute in S. inv S. vm_compute in I.
  cbn [In] in HX. destruct HX as [<- |[<- |[<- |[]]]]; repeat (destruct I as [I|I]; [discriminate I|]); contradiction.
Qed.
Print Assumptions C124_every_character_refuted.

(** ** Examples *)
(** The first four keyboards of the shipped list. *)
Definition first_four (i : N) : option N := if (i <? 4)%N then Some i else None.
Example C123_first_four : alike first_four 9.
Proof.
  split; [exists 0%N; reflexivity|]. intros i k E. unfold first_four in E. destruct (N.ltb_spec i 4); [|discriminate]. inv E.
  split; [assumption|]. split; [lia|]. unfold height. destruct (N.eqb_spec k 4), (N.eqb_spec k 5); lia.
Qed.
(** The ACE 1000: "a" with CAPS LOCK on from the start, and with CAPS LOCK pressed
    first; SHIFT 2. *)
Example C123_example :
  obs sent (c_run (sole 5) (hold 10 [(1, 2)] ++ hold 10 [] ++ hold 10 [(0, 5)] ++ hold 10 [] ++ hold 10 [(1, 2)] ++ hold 10 [] ++
                            hold 10 [(0, 6)] ++ hold 10 [(0, 6); (1, 4)] ++ hold 10 [(0, 6)])) = Some [65; 97; 64]%N /\
  rule 5 (at_start (sole 5)) 1 2 = 65%N /\ rule 5 (mkSetting 0 true false true false) 1 4 = 64%N /\
  session (height 5) 8 (sole 5) [] (fun _ _ => false) (at_start (sole 5)) [].
Proof. split; [vm_compute; reflexivity|]. split; [reflexivity|]. split; [reflexivity|]. constructor. Qed.

(** "Sol-20~" can be typed on the Sol-20 keymap, braces cannot; on the classic caps
    keymap "a" is sent, but only by the message of its tenth function key. *)
Example C124_example :
  Forall (fun x => (x < 128)%N /\ ~ In x (keyless 4)) [83; 111; 108; 45; 50; 48; 126]%N /\
  In 123%N (keyless 4) /\ ~ message_char (sole 4) 123 /\ message_char (sole 1) 97.
Proof.
  split; [repeat constructor; cbn; lia|]. split; [cbn; auto|]. split.
  - intros (i&cs&id&m&l&A&B&S&I). unfold sole, choice in A. destruct (N.eqb_spec i 0); [|discriminate]. inv A.
    cbn in B. repeat (destruct B as [B|B]; [discriminate B|]). destruct B as [B|[]]. inv B.
    apply shows_format in S. vm_compute in S. inv S. vm_compute in I. repeat (destruct I as [I|I]; [discriminate I|]). contradiction.
  - exists 0%N, (setup_of 1), HOOK_USER_10, msg_classic_caps_id, msg_classic_caps_id. split; [reflexivity|]. split; [cbn; auto 10|].
    split; [apply shows_format; vm_compute; reflexivity|]. vm_compute. auto 40.
Qed.
