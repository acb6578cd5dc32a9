(** What does not matter: readings beside the matrix and keys without a
    function, under any keymaps (C139). *)
From Coq Require Import List NArith ZArith Arith Bool Lia.
From Coq Require Import ZifyBool ZifyNat ZifyN.
From Verif Require Import Base Lib Buffer Repeat Devices Modifiers Hook KeymapData Asdf KeySpec Obs PropDebounce
     Custom CustomSpec CustomRef PropCustom PropEvents PropFlow PropExact PropSession PropAllCalls PropLamps PropNoLoss PropOnce PropRate.
Import ListNotations.

(** ** Specification *)
Section Spec.
Variable kbs : N -> option (list setup_cmd).
Variable R C : nat.
(** A key without a function: in all modes of all keyboards its code is
    ACTION_FN_11, for which asdf.c has no case, or above the last action code. *)
Definition deaf (r c : nat) : Prop :=
  forall e, kbs (e_kb e) <> None -> (0xC1 <= code_in kbs e r c)%N.
(** Two scans read the keys of the matrix that are [live] alike. *)
Definition alike_on (live : nat -> nat -> bool) (rd rd' : nat -> N) : Prop :=
  forall r c, r < R -> c < C -> live r c = true -> reading rd r c = reading rd' r c.
End Spec.

(** ** Proofs *)
Section Deaf.
Variable kbs : N -> option (list setup_cmd).
Variable R C : nat.
Variable live : nat -> nat -> bool.
Hypothesis HL : forall r c, r < R -> c < C -> live r c = false -> deaf kbs r c.

Definition okt (t : typist) : Prop := kbs (e_kb (t_set t)) <> None /\ (t_last t <= 0xA0)%N.
Lemma moved_okt : forall t v, okt t -> okt (moved kbs t v).
Proof.
  intros t v [K L]. split.
  - rewrite set_moved_all. apply fold_known. exact K.
  - destruct v as [[r c] m]. cbn [moved]. set (x := code_in kbs (t_set t) r c). destruct m.
    + unfold on_press. destruct (x <=? 0xA0)%N eqn:LX.
      * unfold types. destruct (x =? t_last t)%N; cbn [t_last]; lia.
      * destruct (decode x); try exact L; try (destruct (_ || _); exact L); try (unfold prints; destruct (kbs _); exact L).
        match goal with |- context [if ?b then _ else _] => destruct b end; [|exact L]. unfold prints. destruct (kbs _); exact L.
    + unfold on_release. destruct (x <=? 0xA0)%N; [destruct (x =? t_last t)%N; cbn [t_last]; lia|]. destruct (decode x); exact L.
    + change (on_held x t) with (moved kbs t (r, c, Held)). rewrite held_last. exact L.
Qed.
Lemma starts_okt : forall t, okt t -> okt (scan_starts kbs t).
Proof.
  intros t [K L]. split; [rewrite set_starts; exact K|]. unfold scan_starts, prints, sends_one. cbv zeta. destruct (_ =? _)%N; cbn [t_set]; destruct (kbs _); exact L.
Qed.
Lemma high_code : forall x, (0xC1 <= x)%N -> decode x = AFn 11 \/ decode x = AOther.
Proof.
  intros x H. unfold decode.
  repeat match goal with |- context [if ?b then _ else _] => let E := fresh in destruct b eqn:E; [try (exfalso; clear -H E; lia)|clear E] end.
  - left. f_equal. lia.
  - right. reflexivity.
Qed.
Lemma deaf_moves : forall o r c m, okt (o_typist o) -> deaf kbs r c -> moves kbs o (r, c, m) = o.
Proof.
  intros [t n l] r c m [K L] D. pose proof (D (t_set t) K) as G. pose proof (high_code _ G) as DE. unfold moves. cbn [o_typist o_panel o_calls] in *.
  assert (A : acts kbs (t_set t) n (r, c, m) = (n, [])) by (cbn [acts]; destruct DE as [-> | ->]; destruct m; reflexivity).
  rewrite A. rewrite app_nil_r. f_equal. cbn [moved]. clear A. generalize dependent (code_in kbs (t_set t) r c). intros x G DE.
  destruct m.
  - unfold on_press. replace (x <=? 0xA0)%N with false by lia. destruct DE as [DE|DE]; rewrite DE; unfold after_press, moves_to; try rewrite DE; destruct t; reflexivity.
  - unfold on_release. replace (x <=? 0xA0)%N with false by lia. destruct DE as [DE|DE]; rewrite DE; unfold after_release, moves_to; try rewrite DE; destruct t; reflexivity.
  - unfold on_held. replace (x =? t_last t)%N with false by lia. reflexivity.
Qed.
Definition same_past (pre pre' : list (nat -> N)) : Prop :=
  forall r c, r < R -> c < C -> live r c = true -> key_readings pre r c = key_readings pre' r c.
Lemma same_moves : forall pre pre' rd rd' r c, same_past pre pre' -> alike_on R C live rd rd' -> r < R -> c < C -> live r c = true ->
  key_moves pre rd r c = key_moves pre' rd' r c.
Proof.
  intros pre pre' rd rd' r c SP AL HR HC HV. unfold key_moves, accepted_after.
  assert (X : forall l (q : nat -> N), key_readings (l ++ [q]) r c = key_readings l r c ++ [reading q r c]) by (intros l q; unfold key_readings; rewrite map_app; reflexivity).
  rewrite !X, (SP r c HR HC HV), (AL r c HR HC HV). reflexivity.
Qed.
Lemma moves_okt : forall l o, okt (o_typist o) -> okt (o_typist (fold_left (moves kbs) l o)).
Proof.
  intros l. induction l as [|v l IH]; intros o HO; [exact HO|]. cbn [fold_left]. apply IH. unfold moves. destruct (acts _ _ _ _). cbn [o_typist]. apply moved_okt. exact HO.
Qed.
Lemma deaf_key : forall pre rd r c o, okt (o_typist o) -> deaf kbs r c -> fold_left (moves kbs) (key_moves pre rd r c) o = o.
Proof.
  intros pre rd r c o HO D. unfold key_moves. destruct (accepted_after pre r c), (accepted_after (pre ++ [rd]) r c); try destruct (reading rd r c); cbn [fold_left]; try reflexivity; apply deaf_moves; assumption.
Qed.
Lemma same_cols : forall pre pre' rd rd' r cs o, same_past pre pre' -> alike_on R C live rd rd' -> r < R -> (forall c, In c cs -> c < C) -> okt (o_typist o) ->
  fold_left (moves kbs) (flat_map (key_moves pre rd r) cs) o = fold_left (moves kbs) (flat_map (key_moves pre' rd' r) cs) o.
Proof.
  intros pre pre' rd rd' r cs. induction cs as [|c cs IH]; intros o SP AL HR HC HO; [reflexivity|]. cbn [flat_map]. rewrite !fold_left_app.
  assert (HC0 : c < C) by (apply HC; left; reflexivity). assert (HC' : forall c, In c cs -> c < C) by (intros c' I; apply HC; right; exact I).
  destruct (live r c) eqn:LV.
  - rewrite (same_moves pre pre' rd rd' r c) by assumption. apply IH; auto. apply moves_okt. exact HO.
  - rewrite !deaf_key by (auto using HL). apply IH; auto.
Qed.
Lemma same_rows : forall pre pre' rd rd' rs o, same_past pre pre' -> alike_on R C live rd rd' -> (forall r, In r rs -> r < R) -> okt (o_typist o) ->
  fold_left (moves kbs) (flat_map (fun r => flat_map (key_moves pre rd r) (seq 0 C)) rs) o =
  fold_left (moves kbs) (flat_map (fun r => flat_map (key_moves pre' rd' r) (seq 0 C)) rs) o.
Proof.
  intros pre pre' rd rd' rs. induction rs as [|r rs IH]; intros o SP AL HR HO; [reflexivity|]. cbn [flat_map]. rewrite !fold_left_app.
  rewrite (same_cols pre pre' rd rd' r (seq 0 C) o SP AL); [|apply HR; left; reflexivity|intros c I; apply in_seq in I; lia|exact HO].
  apply IH; auto; [intros r' I; apply HR; right; exact I|apply moves_okt; exact HO].
Qed.
Lemma same_work : forall rds rds', Forall2 (alike_on R C live) rds rds' -> forall pre pre' o, same_past pre pre' -> okt (o_typist o) ->
  works_on kbs R C pre rds o = works_on kbs R C pre' rds' o.
Proof.
  intros rds rds' F. induction F as [|rd rd' rds rds' AL F IH]; intros pre pre' o SP HO; [reflexivity|]. cbn [works_on].
  assert (OB : okt (o_typist (begins kbs o))) by (unfold begins; cbn [o_typist]; apply starts_okt; exact HO).
  assert (E : fold_left (moves kbs) (scan_moves R C pre rd) (begins kbs o) = fold_left (moves kbs) (scan_moves R C pre' rd') (begins kbs o)).
  { unfold scan_moves. apply same_rows; auto. intros r I. apply in_seq in I. lia. }
  rewrite E. apply IH; [|apply moves_okt; exact OB].
  intros r c HR HC HV. unfold key_readings. rewrite !map_app. fold (key_readings pre r c) (key_readings pre' r c). cbn [map]. rewrite (SP r c HR HC HV), (AL r c HR HC HV). reflexivity.
Qed.
End Deaf.

(** ** C139 *)
(** Two runs whose readings agree on the keys of the matrix that have a function
    make the same calls on the hardware: codes, outputs, strobe and delays. *)
Theorem C139_only_live_keys_matter : forall R C kbs live rds rds' s s', sound_firmware R kbs -> same_size R C kbs ->
  (forall r c, r < R -> c < C -> live r c = false -> deaf kbs r c) ->
  Forall2 (alike_on R C live) rds rds' -> c_run kbs rds = Ok s -> c_run kbs rds' = Ok s' -> events s = events s'.
Proof.
  intros R C kbs live rds rds' s s' HS HZ HL F E E'. rewrite (C108_all_calls R C kbs rds s HS HZ E), (C108_all_calls R C kbs rds' s' HS HZ E'). unfold calls_of_run. f_equal.
  apply (same_work kbs R C live HL rds rds' F); [intros r c _ _ _; reflexivity|].
  unfold opens. destruct (match kbs 0%N with Some cs => _ | None => _ end) as [n l]. cbn [o_typist]. split; [cbn [starts t_set]; apply (start_known kbs R HS)|cbn [starts t_last]; lia].
Qed.
Print Assumptions C139_only_live_keys_matter.

(** A letter, a key without a function (ACTION_FN_11), one marked as doing nothing
    (code 0xA0), REPEAT. *)
Definition holes (i : N) : option (list setup_cmd) :=
  let keys := [97; 0xC1; 0xA0; 0xA6]%N in
  if (i =? 0)%N then Some [SAddMap keys 0 1 4; SAddMap keys 1 1 4; SAddMap keys 2 1 4; SAddMap keys 3 1 4] else None.
Lemma holes_sound : sound_firmware 1 holes /\ same_size 1 4 holes.
Proof.
  split; [split|].
  - eexists. reflexivity.
  - intros i cs E1. unfold holes in E1. cbv zeta in E1. destruct (N.eqb_spec i 0); inv E1. split; [lia|]. apply (sound_b_ok 1 1 4); vm_compute; reflexivity.
  - intros i cs mi E1 Hm. unfold holes in E1. cbv zeta in E1. destruct (i =? 0)%N; inv E1. do 4 (destruct mi as [|mi]; [eexists; vm_compute; reflexivity|]). lia.
Qed.
Definition live_holes (r c : nat) : bool := negb (c =? 1).
Definition steady_run (extra : list (nat * nat)) : list (nat -> N) := hold 12 [(0, 3)] ++ hold 12 [(0, 3); (0, 0)] ++ hold 80 ((0, 3) :: (0, 0) :: extra).
Example C139_example :
  (forall r c, r < 1 -> c < 4 -> live_holes r c = false -> deaf holes r c) /\
  Forall2 (alike_on 1 4 live_holes) (steady_run []) (steady_run [(0, 1); (0, 5); (3, 2)]) /\
  obs sent (c_run holes (steady_run [])) = Some [97; 97]%N /\ obs sent (c_run holes (steady_run [(0, 1); (0, 5); (3, 2)])) = Some [97; 97]%N.
Proof.
  split; [|split; [|split; vm_compute; reflexivity]].
  - intros r c Hr Hc HL. assert (r = 0) as -> by lia. assert (c = 1) as -> by (unfold live_holes in HL; lia). intros e K.
    unfold code_in, holes in *. cbv zeta in *. destruct (e_kb e =? 0)%N; [|congruence].
    assert (M : map_in e < 4) by (unfold map_in; destruct (e_ctrl e), (e_shift e || e_lock e), (e_caps e); lia).
    destruct (map_in e) as [|[|[|[|n]]]]; [| | | |lia]; vm_compute; discriminate.
  - assert (A : forall l l', (forall c, c < 4 -> live_holes 0 c = true -> reading (hd (fun _ => 0%N) (hold 1 l)) 0 c = reading (hd (fun _ => 0%N) (hold 1 l')) 0 c) ->
      forall n, Forall2 (alike_on 1 4 live_holes) (hold n l) (hold n l')).
    { intros l l' E n. induction n as [|n IH]; [constructor|]. cbn [hold repeat] in *. constructor; [|exact IH]. intros r c Hr Hc HV. assert (r = 0) as -> by lia. exact (E c Hc HV). }
    unfold steady_run. apply Forall2_app; [|apply Forall2_app]; apply A; intros c Hc HV; do 4 (destruct c as [|c]; [vm_compute in HV |- *; first [reflexivity|discriminate HV]|]); lia.
Qed.
(** A key marked as doing nothing is not of this kind: pressing it ends the repeat
    of the key held. *)
Theorem C139_nothing_keys_refuted : exists kbs live rds rds' s s', sound_firmware 1 kbs /\ same_size 1 4 kbs /\
  (forall e, kbs (e_kb e) <> None -> decode (code_in kbs e 0 2) = ANothing) /\
  Forall2 (alike_on 1 4 live) rds rds' /\ live 0 2 = false /\ (forall c, c <> 2 -> live 0 c = true) /\
  c_run kbs rds = Ok s /\ c_run kbs rds' = Ok s' /\ sent s <> sent s'.
Proof.
  exists holes, (fun r c => negb (c =? 2)), (steady_run []), (steady_run [(0, 2)]).
  assert (X : forall (o : outcome kb) (P : kb -> Prop), match o with Ok s => P s | Bad _ => False end -> exists s, o = Ok s /\ P s).
  { intros [s|u] P H; [eauto|contradiction]. }
  destruct (X (c_run holes (steady_run [])) (fun s => sent s = [97; 97]%N)) as [s [E1 E2]]; [vm_compute; reflexivity|].
  destruct (X (c_run holes (steady_run [(0, 2)])) (fun s => sent s = [97]%N)) as [s' [E1' E2']]; [vm_compute; reflexivity|].
  exists s, s'. split; [apply holes_sound|]. split; [apply holes_sound|]. split.
  { intros e K. unfold code_in, holes in *. cbv zeta in *. destruct (e_kb e =? 0)%N; [|congruence].
    assert (M : map_in e < 4) by (unfold map_in; destruct (e_ctrl e), (e_shift e || e_lock e), (e_caps e); lia).
    destruct (map_in e) as [|[|[|[|n]]]]; [| | | |lia]; vm_compute; reflexivity. }
  split.
  { assert (A : forall l l', (forall c, c < 4 -> negb (c =? 2) = true -> reading (hd (fun _ => 0%N) (hold 1 l)) 0 c = reading (hd (fun _ => 0%N) (hold 1 l')) 0 c) ->
      forall n, Forall2 (alike_on 1 4 (fun r c => negb (c =? 2))) (hold n l) (hold n l')).
    { intros l l' E n. induction n as [|n IH]; [constructor|]. cbn [hold repeat] in *. constructor; [|exact IH]. intros r c Hr Hc HV. assert (r = 0) as -> by lia. exact (E c Hc HV). }
    unfold steady_run. apply Forall2_app; [|apply Forall2_app]; apply A; intros c Hc HV; do 4 (destruct c as [|c]; [vm_compute in HV |- *; first [reflexivity|discriminate HV]|]); lia. }
  split; [reflexivity|]. split; [intros c NE; apply negb_true_iff, Nat.eqb_neq; exact NE|]. split; [exact E1|]. split; [exact E1'|]. rewrite E2, E2'. discriminate.
Qed.
Print Assumptions C139_nothing_keys_refuted.
