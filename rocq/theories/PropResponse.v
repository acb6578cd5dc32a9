(** How soon a keystroke is answered, under any keymaps (C127). *)
From Coq Require Import List NArith ZArith Arith Bool Lia.
From Coq Require Import ZifyBool ZifyNat ZifyN.
From Verif Require Import Base Lib Buffer Repeat Devices Modifiers Hook KeymapData Asdf KeySpec Obs PropDebounce
     Custom CustomSpec CustomRef PropCustom PropEvents PropFlow PropExact PropSession.
From Verif Require Import PropModState PropBounce System Timed PropTimed Jitter PropJitter PropHands CustomSystem CustomTime PropAnyTime PropSystem.
From Verif Require Import PropAnyHands PropRollTime PropAnyPace.
Import ListNotations.

(** ** Specification *)
(** As [c_rolls], each character with the time at which its contact begins to
    move. *)
Inductive c_strokes (R C : nat) (kbs : N -> option (list setup_cmd)) (W : nat -> nat -> N) (G : nat) :
    nat -> nat -> (nat -> nat -> bool) -> setting -> nat -> list (nat * N) -> (nat -> nat -> bool) -> setting -> Prop :=
| ck_done : forall b a H e, c_strokes R C kbs W G b a H e a [] H e
| ck_wait : forall b a d z H e out H' e', c_rests R C W H a d -> (typing R C kbs e H -> d <= b + 500) ->
    c_strokes R C kbs W G b d H e z out H' e' -> c_strokes R C kbs W G b a H e z out H' e'
| ck_mode : forall b a d z H e r c out H' e', r < R -> c < C -> mode_key kbs r c -> plain_code (code_in kbs e r c) ->
    ~ typing R C kbs e H -> c_moves R C W G H r c (negb (H r c)) a d ->
    c_strokes R C kbs W G d d (set2 H r c (negb (H r c))) (after_event kbs e (r, c, negb (H r c))) z out H' e' ->
    c_strokes R C kbs W G b a H e z out H' e'
| ck_press : forall b a d z H e r c out H' e', r < R -> c < C -> H r c = false -> (code_in kbs e r c < 0xA0)%N ->
    (forall r' c', r' < R -> c' < C -> H r' c' = true -> code_in kbs e r' c' <> code_in kbs e r c) ->
    c_moves R C W G H r c true a d -> (typing R C kbs e H -> d <= b + 500) -> d <= a + 500 ->
    c_strokes R C kbs W G a d (set2 H r c true) e z out H' e' ->
    c_strokes R C kbs W G b a H e z ((a, code_in kbs e r c) :: out) H' e'
| ck_lift : forall b a d z H e r c out H' e', r < R -> c < C -> H r c = true -> (code_in kbs e r c < 0xA0)%N ->
    c_moves R C W G H r c false a d -> d <= b + 500 ->
    c_strokes R C kbs W G b d (set2 H r c false) e z out H' e' ->
    c_strokes R C kbs W G b a H e z out H' e'.

(** ** Proof *)
Lemma strokes_rolls : forall R C kbs W G b a H e z out H' e', c_strokes R C kbs W G b a H e z out H' e' ->
  c_rolls R C kbs W G b a H e z (map snd out) H' e'.
Proof.
  intros R C kbs W G b a H e z out H' e' HS.
  induction HS; cbn [map snd]; [apply cr_done|eapply cr_wait|eapply cr_mode|eapply cr_press|eapply cr_lift]; eauto.
Qed.
(** The script up to the moment at which a stroke begins, and up to the moment
    at which its contact has kept still long enough. *)
Lemma strokes_prefix : forall R C kbs W G b a H e z out H' e', c_strokes R C kbs W G b a H e z out H' e' ->
  forall l1 t x l2, out = l1 ++ (t, x) :: l2 -> t + 7 + 11 * G <= z /\
  (exists H1 e1, c_rolls R C kbs W G b a H e t (map snd l1) H1 e1) /\
  (exists H2 e2, c_rolls R C kbs W G b a H e (t + 7 + 11 * G) (map snd l1 ++ [x]) H2 e2).
Proof.
  intros R C kbs W G b a H e z out H' e' HS.
  induction HS as [b a H e|b a d z H e out H' e' HR HT HS IH|b a d z H e r c out H' e' Hr Hc HM HP HT HC HS IH
    |b a d z H e r c out H' e' Hr Hc HH HX HU HC HT HB HS IH|b a d z H e r c out H' e' Hr Hc HH HX HC HT HS IH]; intros l1 t x l2 EO.
  - destruct l1; discriminate.
  - destruct (IH _ _ _ _ EO) as (Z1&(H1&e1&X1)&H2&e2&X2). split; [exact Z1|]. split; do 2 eexists; eapply cr_wait; eauto.
  - destruct (IH _ _ _ _ EO) as (Z1&(H1&e1&X1)&H2&e2&X2). split; [exact Z1|]. split; do 2 eexists; eapply cr_mode; eauto.
  - destruct l1 as [|p l1]; cbn [app] in EO.
    + inv EO. destruct HC as [L HC]. split; [|split].
      * pose proof (c_rolls_le _ _ _ _ _ _ _ _ _ _ _ _ _ (strokes_rolls _ _ _ _ _ _ _ _ _ _ _ _ _ HS)). lia.
      * do 2 eexists. apply cr_done.
      * do 2 eexists. cbn [map app]. apply (cr_press R C kbs W G b t (t + 7 + 11 * G)); auto.
        -- split; [lia|]. intros u Hu. apply HC. lia.
        -- intros TY. specialize (HT TY). lia.
        -- lia.
        -- apply cr_done.
    + inv EO. destruct (IH _ _ _ _ eq_refl) as (Z1&(H1&e1&X1)&H2&e2&X2). split; [exact Z1|]. cbn [map snd app].
      split; do 2 eexists; eapply cr_press; eauto.
  - destruct (IH _ _ _ _ EO) as (Z1&(H1&e1&X1)&H2&e2&X2). split; [exact Z1|]. split; do 2 eexists; eapply cr_lift; eauto.
Qed.

(** Later stamps come after earlier ones. *)
Lemma deeds_grow : forall P W l x, exists k, stamps (jc (deeds (jwatch P W) l x)) = k ++ stamps (jc x) /\ Forall (fun p => jt x <= fst p) k.
Proof.
  intros P W l. induction l as [|d l IH]; intros x; [exists []; auto|].
  change (deeds (jwatch P W) (d :: l) x) with (deeds (jwatch P W) l (deed_on (jwatch P W) d x)).
  destruct (IH (deed_on (jwatch P W) d x)) as (k&E&F). rewrite E.
  assert (F' : Forall (fun p => jt x <= fst p) k).
  { eapply Forall_impl; [|exact F]. cbn beta. intros p Hp. pose proof (deed_le P W d x). lia. }
  assert (K : exists k1, stamps (jc (deed_on (jwatch P W) d x)) = k1 ++ stamps (jc x) /\ Forall (fun p => jt x <= fst p) k1).
  { pose proof (deed_le P W d x) as L. destruct d as [e|row m]; [|exists []; auto]. destruct e; try (exists []; split; [reflexivity|constructor]).
    eexists [_]. split; [reflexivity|]. constructor; [|constructor]. exact L. }
  destruct K as (k1&E1&F1). rewrite E1. exists (k ++ k1). split; [apply app_assoc|]. apply Forall_app. auto.
Qed.
Lemma stamps_grow : forall kbs P W, kbs 0%N <> None -> forall m n s x s' x', c_clock kbs P W n = Ok (s, x) -> c_clock kbs P W (n + m) = Ok (s', x') ->
  exists k, stamps (jc x') = k ++ stamps (jc x) /\ Forall (fun p => jt x <= fst p) k.
Proof.
  intros kbs P W K0. induction m as [|m IH]; intros n s x s' x' H H'.
  - rewrite Nat.add_0_r in H'. rewrite H in H'. inv H'. exists []. auto.
  - rewrite Nat.add_succ_r in H'. pose proof (c_trace kbs P W K0 (n + m)) as TR. rewrite c_clock_S in H'.
    destruct (c_clock kbs P W (n + m)) as [[s0 x0]|u] eqn:E0; [|discriminate].
    destruct TR as (T&g&ER&RG&_). cbn [bind fst snd] in H'. pose proof (c_pass kbs P W g s0 (jwait P x0) RG) as PS. rewrite H' in PS.
    destruct PS as (t0&g'&ET&_&_&l&D&EV). destruct (IH n s x s0 x0 H E0) as (k&E&F). destruct (deeds_grow P W l (jwait P x0)) as (k1&E1&F1).
    rewrite D, E1, jwait_stamps, E. exists (k1 ++ k). split; [apply app_assoc|]. apply Forall_app. split; [|exact F].
    eapply Forall_impl; [|exact F1]. cbn beta. intros p Hp. pose proof (jwait_le P x0) as J.
    pose proof (c_ended_mono kbs P W K0 (n + m) s0 x0 n (n + m) E0 ltac:(clear; lia)) as M. unfold c_ended in M. rewrite H, E0 in M. (clear -Hp J M; lia).
Qed.
(** Of two moments, what was sent by the earlier one. *)
Lemma stamps_compare : forall kbs P W i j si xi sj xj, kbs 0%N <> None -> c_clock kbs P W i = Ok (si, xi) -> c_clock kbs P W j = Ok (sj, xj) ->
  (exists k, rev (stamps (jc xj)) = rev (stamps (jc xi)) ++ k /\ Forall (fun p => c_ended kbs P W i <= fst p) k) \/
  (exists k, rev (stamps (jc xi)) = rev (stamps (jc xj)) ++ k).
Proof.
  intros kbs P W i j si xi sj xj K0 Ei Ej. destruct (Nat.le_gt_cases i j) as [L|L].
  - left. replace j with (i + (j - i)) in Ej by lia. destruct (stamps_grow kbs P W K0 _ _ _ _ _ _ Ei Ej) as (k&E&F).
    exists (rev k). rewrite E, rev_app_distr. split; [reflexivity|]. apply Forall_rev. rewrite (c_ended_ok _ _ _ _ _ _ Ei). exact F.
  - right. replace i with (j + (i - j)) in Ei by lia. destruct (stamps_grow kbs P W K0 _ _ _ _ _ _ Ej Ei) as (k&E&F).
    exists (rev k). rewrite E, rev_app_distr. reflexivity.
Qed.
Lemma split_same : forall A (a b c d : list A) x y, a ++ x :: b = c ++ y :: d -> length a = length c -> a = c /\ x = y /\ b = d.
Proof.
  intros A a. induction a as [|h a IH]; intros b [|h' c] d x y E L; try discriminate L; cbn [app] in E.
  - inv E. auto.
  - inv E. destruct (IH _ _ _ _ _ H1 ltac:(cbn [length] in L; lia)) as (->&->&->). auto.
Qed.

(** ** C127 *)
Theorem C127_response_time : forall R C kbs P W G Z out H e,
  sound_firmware R kbs -> same_size R C kbs -> scan_hook_free kbs ->
  (forall i, c_ended kbs P W i <= Z -> c_ended kbs P W (S i) <= c_ended kbs P W i + G) ->
  c_strokes R C kbs W G (c_ended kbs P W 0) (c_ended kbs P W 0) (fun _ _ => false) (at_start kbs) Z out H e ->
  exists N s c, c_clock kbs P W N = Ok (s, c) /\ c_ended kbs P W N <= Z + G /\
    Forall2 (fun p q => snd q = snd p /\ fst p <= fst q <= fst p + 7 + 12 * G) out (rev (stamps (jc c))).
Proof.
  intros R C kbs P W G Z out H e HS HZ HQ HG HE. assert (K0 : kbs 0%N <> None) by (destruct (proj1 HS); congruence).
  assert (CUT : forall z o H' e', z <= Z -> c_rolls R C kbs W G (c_ended kbs P W 0) (c_ended kbs P W 0) (fun _ _ => false) (at_start kbs) z o H' e' ->
    exists n s c, c_clock kbs P W n = Ok (s, c) /\ z <= c_ended kbs P W n <= z + G /\ map snd (rev (stamps (jc c))) = o).
  { intros z o H' e' Lz HR. destruct (C126_rolls_in_continuous_time R C kbs P W G z o H' e' HS HZ HQ) as (n&s&c&s'&c'&E1&E2&B&_&_&ST&_&_).
    - intros i Hi. apply HG. (clear -Hi Lz; lia).
    - exact HR.
    - exists (S n), s', c'. split; [exact E2|]. split; [|exact ST]. pose proof (HG n ltac:(clear -B Lz; lia)) as X. (clear -B X; lia). }
  destruct (CUT Z _ _ _ (le_n Z) (strokes_rolls _ _ _ _ _ _ _ _ _ _ _ _ _ HE)) as (N&s&c&EN&BN&ST).
  exists N, s, c. split; [exact EN|]. split; [exact (proj2 BN)|].
  assert (EACH : forall l1 a x l2 k1 q k2, out = l1 ++ (a, x) :: l2 -> rev (stamps (jc c)) = k1 ++ q :: k2 -> length k1 = length l1 ->
    snd q = x /\ a <= fst q <= a + 7 + 12 * G).
  { intros l1 a x l2 k1 q k2 EO EK LE. destruct (strokes_prefix _ _ _ _ _ _ _ _ _ _ _ _ _ HE _ _ _ _ EO) as (LZ&(H1&e1&X1)&H2&e2&X2).
    assert (Q : snd q = x /\ map snd k1 = map snd l1).
    { rewrite EK, EO, !map_app in ST. cbn [map snd] in ST. destruct (split_same _ _ _ _ _ _ _ ST) as (A&B&_); [rewrite !map_length; exact LE|]. auto. }
    split; [exact (proj1 Q)|].
    destruct (CUT a _ _ _ ltac:(clear -LZ; lia) X1) as (n1&s1&c1&E1&B1&S1). destruct (CUT (a + 7 + 11 * G) _ _ _ LZ X2) as (n2&s2&c2&E2&B2&S2).
    assert (L1 : length (rev (stamps (jc c1))) = length l1) by (rewrite <- (map_length snd), S1, map_length; reflexivity).
    assert (L2 : length (rev (stamps (jc c2))) = S (length l1)) by (rewrite <- (map_length snd), S2, app_length, map_length; cbn [length]; (clear; lia)).
    split.
    - destruct (stamps_compare kbs P W n1 N s1 c1 s c K0 E1 EN) as [(k&Ek&Fk)|(k&Ek)].
      + destruct k as [|p k].
        { exfalso. rewrite Ek, app_nil_r in EK. apply (f_equal (@length _)) in EK. rewrite app_length in EK. cbn [length] in EK. (clear -EK L1 LE; lia). }
        rewrite Ek in EK. destruct (split_same _ _ _ _ _ _ _ EK) as (_&A&_); [congruence|]. subst p. inversion Fk as [|? ? F1 _]; subst. (clear -F1 B1; lia).
      + exfalso. apply (f_equal (@length _)) in Ek. rewrite app_length, EK, app_length in Ek. cbn [length] in Ek. (clear -Ek L1 LE; lia).
    - pose proof (c_past kbs P W K0 _ _ _ E2) as PA. pose proof (c_ended_ok _ _ _ _ _ _ E2) as NO. apply Forall_rev in PA.
      assert (IN : In q (rev (stamps (jc c2)))).
      { destruct (stamps_compare kbs P W n2 N s2 c2 s c K0 E2 EN) as [(k&Ek&_)|(k&Ek)].
        - rewrite Ek in EK. apply (f_equal (fun l => nth_error l (length l1))) in EK.
          rewrite nth_error_app1 in EK by (rewrite L2; clear; lia). rewrite nth_error_app2 in EK by (rewrite LE; clear; lia).
          rewrite LE, Nat.sub_diag in EK. cbn [nth_error] in EK. eapply nth_error_In. exact EK.
        - rewrite Ek, EK. apply in_or_app. left. apply in_or_app. right. left. reflexivity. }
      rewrite Forall_forall in PA. specialize (PA q IN). cbn beta in PA. unfold jt in PA. (clear -PA B2 NO; lia). }
  assert (LEN : length out = length (rev (stamps (jc c)))) by (rewrite <- (map_length snd (rev _)), ST, map_length; reflexivity).
  clear -EACH LEN. set (l := rev (stamps (jc c))) in *. clearbody l.
  assert (GEN : forall l1 l2 k1 k2, out = l1 ++ l2 -> l = k1 ++ k2 -> length k1 = length l1 ->
    Forall2 (fun p q => snd q = snd p /\ fst p <= fst q <= fst p + 7 + 12 * G) l2 k2).
  { intros l1 l2. revert l1. induction l2 as [|[a x] l2 IH]; intros l1 k1 k2 E1 E2 L.
    - destruct k2; [constructor|]. exfalso. subst. rewrite !app_length in LEN. cbn [length] in LEN. (clear -LEN L; lia).
    - destruct k2 as [|q k2]; [exfalso; subst; rewrite !app_length in LEN; cbn [length] in LEN; (clear -LEN L; lia)|].
      constructor; [exact (EACH _ _ _ _ _ _ _ E1 E2 L)|]. apply (IH (l1 ++ [(a, x)]) (k1 ++ [q])).
      + rewrite <- app_assoc. exact E1.
      + rewrite <- app_assoc. exact E2.
      + rewrite !app_length. cbn [length]. (clear -L; lia). }
  exact (GEN [] out [] l eq_refl eq_refl eq_refl).
Qed.
Print Assumptions C127_response_time.

(** "a" struck at 20 ms and "b" at 65 ms, with bounces; passes of at most 3 ms.
    They leave at 32 and 79 ms. *)
Example C127_example :
  sound_firmware 1 desk /\ same_size 1 8 desk /\ scan_hook_free desk /\ c_ended desk slow roll_world 0 = 1 /\
  (forall i, c_ended desk slow roll_world i <= 205 -> c_ended desk slow roll_world (S i) <= c_ended desk slow roll_world i + 3) /\
  (exists H e, c_strokes 1 8 desk roll_world 3 1 1 (fun _ _ => false) (at_start desk) 205 [(20, 97%N); (65, 98%N)] H e) /\
  bind (c_clock desk slow roll_world 170) (fun p => Ok (now (jc (snd p)), rev (stamps (jc (snd p))))) = Ok (205, [(32, 97%N); (79, 98%N)]).
Proof.
  split; [exact (proj1 desk_sound)|]. split; [exact (proj1 (proj2 desk_sound))|]. split; [exact (proj2 (proj2 desk_sound))|].
  split; [vm_compute; reflexivity|]. split; [|split; [|vm_compute; reflexivity]].
  - intros i Hz. destruct (Nat.le_gt_cases i 215) as [L|L].
    + assert (F : forallb (fun i => c_ended desk slow roll_world (S i) <=? c_ended desk slow roll_world i + 3) (seq 0 216) = true) by (vm_compute; reflexivity).
      rewrite forallb_forall in F. apply Nat.leb_le. apply F. apply in_seq. (clear -L; lia).
    + exfalso. assert (K0 : desk 0%N <> None) by discriminate.
      assert (TOT : exists s x, c_clock desk slow roll_world i = Ok (s, x)).
      { destruct (C110_whole_board_in_real_time 1 8 desk slow roll_world i (proj1 desk_sound) (proj1 (proj2 desk_sound))) as (s&c&T&E&_). eauto. }
      destruct TOT as (s&x&E).
      pose proof (c_ended_mono desk slow roll_world K0 i s x 215 i E ltac:(clear -L; lia)) as M.
      assert (K : (206 <=? c_ended desk slow roll_world 215) = true) by (vm_compute; reflexivity). apply Nat.leb_le in K. (clear -M K Hz; lia).
  - do 2 eexists. apply (ck_wait 1 8 desk roll_world 3 1 1 20); [apply r_rests_check; [lia|vm_compute; reflexivity]|lia|].
    change [(20, 97%N); (65, 98%N)] with [(20, code_in desk (at_start desk) 0 0); (65, code_in desk (at_start desk) 0 1)].
    eapply (ck_press 1 8 desk roll_world 3 1 20 65 205 _ _ 0 0); [lia|lia|reflexivity|reflexivity| |apply r_moves_check; [lia|vm_compute; reflexivity]|lia|lia|].
    { intros r c Hr. assert (r = 0) as -> by lia. revert c. each_key. }
    eapply (ck_press 1 8 desk roll_world 3 20 65 110 205 _ _ 0 1); [lia|lia|reflexivity|reflexivity| |apply r_moves_check; [lia|vm_compute; reflexivity]|lia|lia|].
    { intros r c Hr. assert (r = 0) as -> by lia. revert c. each_key. }
    eapply (ck_lift 1 8 desk roll_world 3 65 110 160 205 _ _ 0 0); [lia|lia|reflexivity|reflexivity|apply r_moves_check; [lia|vm_compute; reflexivity]|lia|].
    eapply (ck_lift 1 8 desk roll_world 3 65 160 205 205 _ _ 0 1); [lia|lia|reflexivity|reflexivity|apply r_moves_check; [lia|vm_compute; reflexivity]|lia|].
    apply ck_done.
Qed.
