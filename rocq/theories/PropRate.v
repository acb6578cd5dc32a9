(** How fast keys can repeat, whatever is held, under any keymaps (C138). *)
From Coq Require Import List NArith ZArith Arith Bool Lia.
From Coq Require Import ZifyBool ZifyNat ZifyN.
From Verif Require Import Base Lib Buffer Repeat Devices Modifiers Hook KeymapData Asdf KeySpec Obs PropDebounce
     Custom CustomSpec CustomRef PropCustom PropEvents PropFlow PropExact PropSession PropLamps PropAnyPace PropSpeak PropNoLoss PropOnce.
Import ListNotations.

(** ** Specification *)
Section Spec.
Variable kbs : N -> option (list setup_cmd).
Variable R C : nat.
(** A kind of codes; how many codes of a list are of that kind. *)
Definition count (Q : N -> bool) (l : list N) : nat := length (filter Q l).
(** At most [d] keys bear the same code of the kind, in any modes of any keyboard. *)
Definition sharing (Q : N -> bool) (d : nat) : Prop :=
  forall e x, kbs (e_kb e) <> None -> Q x = true ->
    length (filter (fun k => code_in kbs e (fst k) (snd k) =? x)%N (list_prod (seq 0 R) (seq 0 C))) <= d.
(** The codes typed in scans [rds] that follow [pre]. *)
Definition typed_in (pre rds : list (nat -> N)) : list N :=
  concat (map fst (skipn (length pre) (work kbs R C (pre ++ rds)))).
End Spec.
(** A kind of characters, or all codes. *)
Definition kind (Q : N -> bool) : Prop := Q 0xA0%N = false \/ forall x, Q x = true.

(** ** Proofs *)
Lemma count_app : forall Q a b, count Q (a ++ b) = count Q a + count Q b.
Proof. intros. unfold count. rewrite filter_app, app_length. reflexivity. Qed.
Lemma chosen_known : forall kbs i e, kbs (e_kb e) <> None -> kbs (e_kb (choose kbs i e)) <> None.
Proof. intros kbs i e K. unfold choose. destruct (i =? e_kb e)%N; [exact K|]. destruct (kbs i) eqn:E; [cbn; congruence|exact K]. Qed.
Lemma event_known : forall kbs e v, kbs (e_kb e) <> None -> kbs (e_kb (after_event kbs e v)) <> None.
Proof.
  intros kbs e [[r c] b] K. unfold after_event. cbv zeta. destruct b.
  - unfold after_press. destruct (decode _); cbn [e_kb]; auto using chosen_known.
  - unfold after_release. destruct (decode _); cbn [e_kb]; auto using chosen_known.
Qed.
Lemma fold_known : forall kbs l e, kbs (e_kb e) <> None -> kbs (e_kb (fold_left (after_event kbs) l e)) <> None.
Proof. intros kbs l. induction l as [|v l IH]; intros e K; [exact K|]. cbn [fold_left]. apply IH, event_known, K. Qed.

Section Rate.
Variable kbs : N -> option (list setup_cmd).
Variable R C : nat.
Variable Q : N -> bool.
Variable d : nat.
Hypothesis HQ : kind Q.
Hypothesis HD : sharing kbs R C Q d.

Definition pot (t : typist) : nat := if Q (t_last t) && (0 <? t_left t)%N then 66 - N.to_nat (t_left t) else 0.
Definition tick (t : typist) (v : nat * nat * move) : nat :=
  let '(r, c, m) := v in match m with Held => if (code_in kbs (t_set t) r c =? t_last t)%N && Q (t_last t) then 1 else 0 | _ => 0 end.
Lemma pot_same : forall t u, t_last t = t_last u -> t_left t = t_left u -> pot t = pot u.
Proof. intros t u A B. unfold pot. rewrite A, B. reflexivity. Qed.
Lemma pot_long : forall t, (t_left t = 0 \/ 66 <= t_left t)%N -> pot t = 0.
Proof. intros t L. unfold pot. destruct (Q (t_last t)); cbn [andb]; [|reflexivity]. destruct (0 <? t_left t)%N eqn:E; lia. Qed.
Lemma delay_long : forall f a, (first_delay f a = 0 \/ 66 <= first_delay f a)%N.
Proof. intros [] []; cbn; lia. Qed.

Lemma moved_pot : forall t v, 66 * count Q (typed_by kbs t v) + pot (moved kbs t v) <=
  pot t + 66 * count Q (typed kbs (t_set t) (ev_of v)) + tick t v.
Proof.
  intros t [[r c] m]. cbn [typed_by moved tick]. set (x := code_in kbs (t_set t) r c). cbv zeta. destruct m; cbn [ev_of typed andb].
  - fold x. rewrite app_nil_r. unfold on_press. destruct (x <=? 0xA0)%N eqn:L.
    + assert (P : pot (types x t) <= pot t).
      { unfold types. destruct (x =? t_last t)%N; [rewrite (pot_same _ t) by reflexivity; lia|]. rewrite pot_long by apply delay_long. lia. }
      lia.
    + cbn [count filter length]. assert (P : pot (on_press kbs x t) <= pot t); [|unfold on_press in P; rewrite L in P; unfold count; cbn [filter length]; lia].
      unfold on_press. rewrite L. destruct (decode x); try (rewrite (pot_same _ t) by reflexivity; lia).
      * destruct (_ || _); [rewrite pot_long by (cbn; lia)|]; lia.
      * unfold prints. destruct (kbs _); [rewrite (pot_same _ t) by reflexivity|]; lia.
      * destruct (t_fast t) eqn:F; [rewrite (pot_same _ t) by reflexivity; lia|]. rewrite pot_long by (cbn; lia). lia.
      * destruct (_ <=? 10); [|lia]. unfold prints. destruct (kbs _); [rewrite (pot_same _ t) by reflexivity|]; lia.
  - unfold count; cbn [filter length]. assert (P : pot (on_release kbs x t) <= pot t); [|lia].
    unfold on_release. destruct (x <=? 0xA0)%N.
    + destruct (x =? t_last t)%N; [|lia]. unfold pot. cbn [t_last t_left]. destruct HQ as [H|H]; [rewrite H; cbn [andb]; apply Nat.le_0_l|]. rewrite (H 0xA0%N), (H (t_last t)). apply Nat.le_refl.
    + destruct (decode x); try (rewrite (pot_same _ t) by reflexivity; lia).
      * rewrite pot_long by apply delay_long. lia.
      * destruct (t_fast t) eqn:F; [rewrite (pot_same _ t) by reflexivity; lia|]. rewrite pot_long by (cbn; lia). lia.
  - fold x. unfold on_held. destruct (N.eqb_spec x (t_last t)) as [EX|NE]; cbn [andb]; [|unfold count; cbn [filter length]; lia].
    destruct (N.eqb_spec (t_left t) 1) as [L|L].
    + rewrite L. cbn [N.ltb N.compare]. unfold types, count. cbn [beats t_last]. replace (x =? t_last t)%N with true by (symmetry; apply N.eqb_eq; exact EX).
      rewrite (pot_long (mkTy _ _ _ _ _ _ _ _)) by (cbn; lia). cbn [filter]. unfold pot. rewrite L, <- EX. change (N.to_nat 1) with 1. destruct (Q x); cbn [length andb N.ltb N.compare]; lia.
    + unfold count; cbn [filter length]. destruct (0 <? t_left t)%N eqn:Z; [|lia]. unfold pot. cbn [beats t_last t_left]. destruct (Q (t_last t)); cbn [andb]; [|lia].
      rewrite Z. destruct (0 <? t_left t - 1)%N; lia.
Qed.

Lemma set_moved_all : forall t v, t_set (moved kbs t v) = fold_left (after_event kbs) (ev_of v) (t_set t).
Proof.
  intros t [[r c] m]. destruct m; cbn [ev_of fold_left].
  - exact (set_moved kbs t r c true).
  - exact (set_moved kbs t r c false).
  - apply set_held.
Qed.
Lemma set_fold : forall l t, t_set (fold_left (moved kbs) l t) = fold_left (after_event kbs) (flat_map ev_of l) (t_set t).
Proof. intros l. induction l as [|v l IH]; intros t; [reflexivity|]. cbn [fold_left flat_map]. rewrite IH, set_moved_all, fold_left_app. reflexivity. Qed.

Fixpoint ticks (l : list (nat * nat * move)) (t : typist) : nat :=
  match l with [] => 0 | v :: l => tick t v + ticks l (moved kbs t v) end.
Lemma fold_pot : forall l t, 66 * count Q (all_by kbs (typed_by kbs) l t) + pot (fold_left (moved kbs) l t) <=
  pot t + 66 * count Q (typed kbs (t_set t) (flat_map ev_of l)) + ticks l t.
Proof.
  intros l. induction l as [|v l IH]; intros t; [cbn; lia|]. cbn [all_by fold_left flat_map ticks]. rewrite typed_app2, !count_app.
  pose proof (moved_pot t v) as M. specialize (IH (moved kbs t v)). rewrite set_moved_all in IH. lia.
Qed.

(** *** Keys with the code that may repeat *)
Fixpoint still (l : list (nat * nat * move)) : list (nat * nat) :=
  match l with (r, c, Held) :: l => (r, c) :: still l | _ => [] end.
Definition named (v : nat * nat * move) : nat * nat := let '(r, c, _) := v in (r, c).
Lemma still_incl : forall l k, In k (still l) -> In k (map named l).
Proof. intros l. induction l as [|[[r c] m] l IH]; intros k I; [exact I|]. cbn [still map named] in *. destruct m; try contradiction. destruct I as [-> |I]; [left; reflexivity|right; auto]. Qed.
Lemma still_nodup : forall l, NoDup (map named l) -> NoDup (still l).
Proof.
  intros l. induction l as [|[[r c] m] l IH]; intros ND; cbn [still map named] in *; [constructor|]. inv ND. destruct m; try constructor; auto.
  intros X. apply H1. apply still_incl. exact X.
Qed.
Definition alike (t : typist) (ks : list (nat * nat)) : nat :=
  if Q (t_last t) then length (filter (fun k => code_in kbs (t_set t) (fst k) (snd k) =? t_last t)%N ks) else 0.
Lemma alike_bound : forall t ks, kbs (e_kb (t_set t)) <> None -> NoDup ks -> incl ks (list_prod (seq 0 R) (seq 0 C)) -> alike t ks <= d.
Proof.
  intros t ks K ND IN. unfold alike. destruct (Q (t_last t)) eqn:E; [|lia]. eapply Nat.le_trans; [|apply (HD (t_set t) (t_last t) K E)].
  apply NoDup_incl_length; [apply NoDup_filter; exact ND|]. intros k I. apply filter_In in I. apply filter_In. split; [apply IN; tauto|tauto].
Qed.
Lemma held_last : forall t r c, t_last (moved kbs t (r, c, Held)) = t_last t.
Proof.
  intros. cbn [moved]. unfold on_held, types. destruct (N.eqb_spec (code_in kbs (t_set t) r c) (t_last t)) as [E|NE]; cbn [andb]; [|reflexivity].
  destruct (0 <? t_left t)%N; [|reflexivity]. destruct (t_left t =? 1)%N; [|reflexivity]. cbn [beats t_last]. destruct (_ =? _)%N; auto.
Qed.
Lemma ticks_bound : forall l t, kbs (e_kb (t_set t)) <> None -> NoDup (map named l) -> incl (map named l) (list_prod (seq 0 R) (seq 0 C)) ->
  ticks l t <= alike t (still l) + d * length (flat_map ev_of l).
Proof.
  intros l. induction l as [|v l IH]; intros t K ND IN; [cbn; lia|]. cbn [map] in ND, IN. inv ND.
  assert (IN' : incl (map named l) (list_prod (seq 0 R) (seq 0 C))) by (intros k I; apply IN; right; exact I).
  assert (K' : kbs (e_kb (t_set (moved kbs t v))) <> None).
  { rewrite set_moved_all. destruct v as [[r c] m]; destruct m; cbn [ev_of fold_left]; auto using event_known. }
  specialize (IH (moved kbs t v) K' H2 IN'). cbn [ticks flat_map]. rewrite app_length.
  pose proof (alike_bound (moved kbs t v) (still l) K' (still_nodup _ H2) (fun k I => IN' k (still_incl _ _ I))) as AB.
  destruct v as [[r c] m]. destruct m.
  - cbn [tick ev_of length]. nia.
  - cbn [tick ev_of length]. nia.
  - cbn [ev_of length plus still tick]. assert (A : alike (moved kbs t (r, c, Held)) (still l) = alike t (still l)).
    { unfold alike. rewrite held_last, set_held. reflexivity. }
    rewrite A in IH. unfold alike at 1. unfold alike in IH. cbn [filter fst snd]. destruct (Q (t_last t)); rewrite ?andb_true_r, ?andb_false_r; [|lia].
    destruct (code_in kbs (t_set t) r c =? t_last t)%N; cbn [length]; lia.
Qed.

(** *** Whole scans *)
Lemma map_flat : forall A B D (f : B -> D) (g : A -> list B) l, map f (flat_map g l) = flat_map (fun x => map f (g x)) l.
Proof. intros. induction l as [|x l IH]; [reflexivity|]. cbn [flat_map]. rewrite map_app, IH. reflexivity. Qed.
Lemma nodup_prod_sub : forall (f : nat -> nat -> bool) rs cs, NoDup rs -> NoDup cs ->
  NoDup (flat_map (fun r => flat_map (fun c => if f r c then [(r, c)] else []) cs) rs).
Proof.
  intros f rs cs NR NC. assert (RW : forall r l, NoDup l -> NoDup (flat_map (fun c => if f r c then [(r, c)] else []) l)).
  { intros r l ND. induction ND as [|c l HI ND IH]; [constructor|]. cbn [flat_map]. destruct (f r c); [|exact IH]. constructor; [|exact IH].
    rewrite in_flat_map. intros [c' [I J]]. destruct (f r c'); [|contradiction]. destruct J as [J|[]]. inv J. contradiction. }
  induction NR as [|r rs HI NR IH]; [constructor|]. cbn [flat_map].
  assert (DJ : forall k, In k (flat_map (fun c => if f r c then [(r, c)] else []) cs) -> fst k = r).
  { intros k I. apply in_flat_map in I. destruct I as [c [_ I]]. destruct (f r c); [destruct I as [<- |[]]; reflexivity|contradiction]. }
  specialize (RW r cs NC). induction RW as [|k l HK RW IH2]; [exact IH|]. cbn [app]. constructor.
  - rewrite in_app_iff. intros [I|I]; [contradiction|]. apply in_flat_map in I. destruct I as [r' [I J]]. apply in_flat_map in J. destruct J as [c [_ J]].
    destruct (f r' c); [|contradiction]. destruct J as [J|[]]. subst k. specialize (DJ _ (or_introl eq_refl)). cbn in DJ. subst. contradiction.
  - apply IH2. intros k' I. apply DJ. right. exact I.
Qed.
Lemma named_moves : forall pre rd, exists f : nat -> nat -> bool,
  map named (scan_moves R C pre rd) = flat_map (fun r => flat_map (fun c => if f r c then [(r, c)] else []) (seq 0 C)) (seq 0 R).
Proof.
  intros pre rd. exists (fun r c => match accepted_after pre r c, accepted_after (pre ++ [rd]) r c with false, false => false | true, true => reading rd r c | _, _ => true end).
  unfold scan_moves. rewrite map_flat. apply flat_map_ext. intros r. rewrite map_flat. apply flat_map_ext. intros c. unfold key_moves.
  destruct (accepted_after pre r c), (accepted_after (pre ++ [rd]) r c); try reflexivity. destruct (reading rd r c); reflexivity.
Qed.
Lemma scan_ticks : forall pre rd t, kbs (e_kb (t_set t)) <> None -> ticks (scan_moves R C pre rd) t <= d * (1 + length (scan_events R C pre rd)).
Proof.
  intros pre rd t K. destruct (named_moves pre rd) as [f E].
  assert (ND : NoDup (map named (scan_moves R C pre rd))) by (rewrite E; apply nodup_prod_sub; apply seq_NoDup).
  assert (IN : incl (map named (scan_moves R C pre rd)) (list_prod (seq 0 R) (seq 0 C))).
  { rewrite E. intros [r c] I. apply in_flat_map in I. destruct I as [r' [I J]]. apply in_flat_map in J. destruct J as [c' [J X]]. destruct (f r' c'); [|contradiction].
    destruct X as [X|[]]. inv X. apply in_prod; assumption. }
  pose proof (ticks_bound _ t K ND IN) as T. pose proof (alike_bound t _ K (still_nodup _ ND) (fun k I => IN k (still_incl _ _ I))) as A.
  rewrite events_of_moves in T. lia.
Qed.
Lemma starts_pot : forall t, pot (scan_starts kbs t) = pot t.
Proof. intros t. apply pot_same; unfold scan_starts, prints, sends_one; cbv zeta; destruct (_ =? _)%N; cbn [t_set]; destruct (kbs _); reflexivity. Qed.
Lemma works_rate : forall rds pre t, kbs (e_kb (t_set t)) <> None ->
  66 * count Q (concat (map fst (works kbs R C pre rds t))) <=
  pot t + 66 * count Q (typed kbs (t_set t) (transitions R C pre rds)) + d * (length rds + length (transitions R C pre rds)).
Proof.
  intros rds. induction rds as [|rd rds IH]; intros pre t K; [cbn; lia|]. cbn [works transitions]. cbv zeta. cbn [map concat fst length]. rewrite typed_app2, !count_app, app_length.
  set (t1 := fold_left (moved kbs) (scan_moves R C pre rd) (scan_starts kbs t)).
  assert (S1 : t_set t1 = fold_left (after_event kbs) (scan_events R C pre rd) (t_set t)).
  { unfold t1. rewrite set_fold, events_of_moves, set_starts. reflexivity. }
  assert (K1 : kbs (e_kb (t_set t1)) <> None).
  { rewrite S1. apply fold_known, K. }
  specialize (IH (pre ++ [rd]) t1 K1). rewrite S1 in IH.
  pose proof (fold_pot (scan_moves R C pre rd) (scan_starts kbs t)) as F. fold t1 in F. rewrite starts_pot, set_starts, events_of_moves in F.
  pose proof (scan_ticks pre rd (scan_starts kbs t) ltac:(rewrite set_starts; exact K)) as T. lia.
Qed.
Lemma scans_set : forall rds pre t, t_set (scans kbs R C pre rds t) = fold_left (after_event kbs) (transitions R C pre rds) (t_set t).
Proof.
  intros rds. induction rds as [|rd rds IH]; intros pre t; [reflexivity|]. cbn [scans transitions]. rewrite IH, set_fold, events_of_moves, set_starts, fold_left_app. reflexivity.
Qed.
Lemma start_known : sound_firmware R kbs -> kbs (e_kb (at_start kbs)) <> None.
Proof. intros [[cs H] _]. cbn [at_start e_kb]. congruence. Qed.
Lemma pot_max : forall t, pot t <= 65.
Proof. intros t. unfold pot. destruct (Q (t_last t)); cbn [andb]; [|lia]. destruct (0 <? t_left t)%N eqn:E; lia. Qed.
Lemma typed_in_works : forall pre rds, typed_in kbs R C pre rds = concat (map fst (works kbs R C pre rds (scans kbs R C [] pre (starts kbs)))).
Proof.
  intros pre rds. unfold typed_in, work. rewrite works_app. cbn [app]. rewrite <- (works_length kbs R C pre [] (starts kbs)) at 1. rewrite skipn_app, skipn_all, Nat.sub_diag. reflexivity.
Qed.
End Rate.

Lemma app_same_length : forall A (a b x y : list A), length a = length x -> a ++ b = x ++ y -> a = x /\ b = y.
Proof.
  intros A a. induction a as [|z a IH]; intros b [|w x] y L E; try discriminate L; [split; [reflexivity|exact E]|].
  cbn [app] in E. injection E as -> E. destruct (IH b x y ltac:(cbn in L; lia) E) as [-> ->]. split; reflexivity.
Qed.
Lemma moves_over : forall R C a b pre, transitions R C pre (a ++ b) = transitions R C pre a ++ transitions R C (pre ++ a) b.
Proof.
  intros R C a. induction a as [|rd a IH]; intros b pre; cbn [app transitions]; [rewrite app_nil_r; reflexivity|]. rewrite IH, <- !app_assoc. reflexivity.
Qed.
Lemma typed_length : forall kbs l e, length (typed kbs e l) <= length l.
Proof.
  intros kbs l. induction l as [|[[r c] b] l IH]; intros e; [cbn; lia|]. cbn [typed length]. rewrite app_length. specialize (IH (after_event kbs e (r, c, b))).
  destruct (b && _); cbn [length]; lia.
Qed.

(** ** C138 *)
(** Whatever was done before and whatever is done: in the scans [rds] the codes
    of a kind are typed once for each of their keys struck, and besides at most
    every 66th time a key with the code that may repeat is found held.  Of these
    there are at most [d] in a scan, and [d] more for each key that moves. *)
Theorem C138_repeat_rate : forall R C kbs Q d pre rds, sound_firmware R kbs -> kind Q -> sharing kbs R C Q d ->
  let now := transitions R C pre rds in
  let e := fold_left (after_event kbs) (transitions R C [] pre) (at_start kbs) in
  66 * count Q (typed_in kbs R C pre rds) <= 66 * count Q (typed kbs e now) + d * (length rds + length now) + 65.
Proof.
  intros R C kbs Q d pre rds HS HQ HD now e. rewrite typed_in_works.
  set (t := scans kbs R C [] pre (starts kbs)). assert (E : t_set t = e) by (unfold t; rewrite scans_set; reflexivity).
  assert (K : kbs (e_kb (t_set t)) <> None).
  { rewrite E. apply fold_known, (start_known kbs R HS). }
  pose proof (works_rate kbs R C Q d HQ HD rds pre t K) as W. rewrite E in W. fold now in W. pose proof (pot_max Q t). lia.
Qed.
Print Assumptions C138_repeat_rate.

(** What is sent, without messages: no code more often than this. *)
Theorem C138_sent_rate : forall R C kbs Q d rds s, sound_firmware R kbs -> same_size R C kbs -> kind Q -> sharing kbs R C Q d ->
  c_run kbs rds = Ok s -> mute (work kbs R C rds) ->
  let all := transitions R C [] rds in
  66 * count Q (sent s) <= 66 * count Q (typed kbs (at_start kbs) all) + d * (length rds + length all) + 65.
Proof.
  intros R C kbs Q d rds s HS HZ HQ HD ES HM all. pose proof (C138_repeat_rate R C kbs Q d [] rds HS HQ HD) as X. cbv zeta in X. cbn [app transitions fold_left] in X. fold all in X.
  assert (LE : count Q (sent s) <= count Q (typed_in kbs R C [] rds)); [|lia].
  unfold typed_in. cbn [length skipn app]. pose proof (run_post kbs R C HS HZ rds s ES) as EP. revert HM EP. generalize (work kbs R C rds). clear. intros w HM EP.
  assert (CV : forall l, count Q (visible l) <= count Q l).
  { intros l. unfold count, visible. induction l as [|x l IH]; [cbn; lia|]. cbn [filter]. destruct (x <? 0xA0)%N; cbn [filter]; destruct (Q x); cbn [length]; lia. }
  assert (CE : forall l q, count Q (enter 16 l q) <= count Q q + count Q l).
  { intros l. induction l as [|x l IH]; intros q; [cbn [enter]; lia|]. cbn [enter]. specialize (IH (if length q <? 16 then q ++ [x] else q)). change (x :: l) with ([x] ++ l). rewrite (count_app Q [x] l).
    destruct (length q <? 16); rewrite ?count_app in IH; lia. }
  assert (G : forall w k out k' m' out', mute w -> post w k [] out = (k', m', out') -> count Q out' + count Q k' <= count Q out + count Q k + count Q (concat (map fst w))).
  { clear -CV CE. intros w. induction w as [|[o p] w IH]; intros k out k' m' out' HM E.
    - cbn [post] in E. inv E. lia.
    - inv HM. cbn [snd] in H1. subst p. cbn [post hd tl enter] in E. rewrite N.eqb_refl in E. specialize (IH _ _ _ _ _ H2 E). cbn [map concat fst]. rewrite !count_app in *.
      pose proof (CE o (tl k)). pose proof (CV (firstn 1 k)). assert (count Q k = count Q (firstn 1 k) + count Q (tl k)) by (rewrite <- count_app; destruct k; reflexivity). lia. }
  pose proof (G _ _ _ _ _ _ HM EP) as Y. cbn in Y. unfold count in *. lia.
Qed.
Print Assumptions C138_sent_rate.

(** Someone who never moves more than 12 keys at once, nor more than one key in
    two scans for long, loses nothing, on keymaps with at most 8 keys of the same
    code and without messages. *)
Theorem C138_no_loss_at_human_pace : forall R C kbs rds s, sound_firmware R kbs -> same_size R C kbs ->
  sharing kbs R C (fun _ => true) 8 -> c_run kbs rds = Ok s -> mute (work kbs R C rds) ->
  (forall a m b, rds = a ++ m ++ b -> m <> [] -> 2 * length (transitions R C a m) <= length m + 24) ->
  sent s ++ visible (key_queue s) = visible (concat (map fst (work kbs R C rds))).
Proof.
  intros R C kbs rds s HS HZ HD ES HM HP.
  assert (BU : bursts (map fst (work kbs R C rds))).
  { intros a w b E NE.
    assert (LW : length rds = length a + (length w + length b)).
    { rewrite <- (works_length kbs R C rds [] (starts kbs)). fold (work kbs R C rds). rewrite <- (map_length fst), E, !app_length. reflexivity. }
    set (ra := firstn (length a) rds). set (rm := firstn (length w) (skipn (length a) rds)). set (rb := skipn (length w) (skipn (length a) rds)).
    assert (ER : rds = ra ++ rm ++ rb) by (unfold ra, rm, rb; rewrite !firstn_skipn; reflexivity).
    assert (LA : length ra = length a) by (unfold ra; rewrite firstn_length; lia).
    assert (LM : length rm = length w) by (unfold rm; rewrite firstn_length, skipn_length; lia).
    assert (NM : rm <> []) by (intros X; rewrite X in LM; destruct w; [congruence|discriminate LM]).
    specialize (HP ra rm rb ER NM).
    assert (EW : concat w = typed_in kbs R C ra rm).
    { rewrite typed_in_works. f_equal. unfold work in E. rewrite ER, !works_app, !map_app in E. cbn [app] in E.
      assert (L1 : length (map fst (works kbs R C [] ra (starts kbs))) = length a) by (rewrite map_length, works_length; exact LA).
      destruct (app_same_length _ _ _ _ _ L1 E) as [_ E2].
      refine (eq_sym (proj1 (app_same_length _ _ _ _ _ _ E2))). rewrite map_length, works_length. exact LM. }
    rewrite EW. pose proof (C138_repeat_rate R C kbs (fun _ => true) 8 ra rm HS (or_intror (fun _ => eq_refl)) HD) as X. cbv zeta in X.
    assert (CL : forall l, count (fun _ => true) l = length l).
    { intros l. unfold count. induction l as [|x l IH]; [reflexivity|]. cbn [filter length]. rewrite IH. reflexivity. }
    rewrite !CL in X. pose proof (typed_length kbs (transitions R C ra rm) (fold_left (after_event kbs) (transitions R C [] ra) (at_start kbs))) as TL.
    revert X TL HP. rewrite LM. destruct w; [congruence|]. cbn [length]. clear. generalize (length (typed_in kbs R C ra rm)) (length (transitions R C ra rm)) (length w) (length (typed kbs (fold_left (after_event kbs) (transitions R C [] ra) (at_start kbs)) (transitions R C ra rm))).
    intros. lia. }
  assert (HW : Forall (fun p => ~ In 0xA0%N (snd p)) (work kbs R C rds)).
  { unfold mute in HM. rewrite Forall_forall in *. intros p I J. rewrite (HM p I) in J. exact J. }
  destruct (C133_nothing_lost R C kbs rds s HS HZ ES (proj1 (fits_room _ 0 HM) (proj1 (bursts_iff _) BU)) HW) as (k&m&SH&EK&EM).
  rewrite EK, PropNoLoss.visible_app. f_equal.
  assert (M0 : concat (map snd (work kbs R C rds)) = []).
  { revert HM. generalize (work kbs R C rds). clear. intros w MU. induction MU as [|[o p] w HP MU IH]; [reflexivity|]. cbn [map concat snd] in *. subst p. exact IH. }
  rewrite M0 in EM. symmetry in EM. apply app_eq_nil in EM. destruct EM as [-> _]. apply shuffle_alone in SH; auto.
Qed.
Print Assumptions C138_no_loss_at_human_pace.

(** "a" on two keys, REPEAT and SHIFT. *)
Definition twin (i : N) : option (list setup_cmd) :=
  if (i =? 0)%N then Some [SAddMap [97; 97; 0xA6; 0xA1]%N 0 1 4; SAddMap [65; 65; 0xA6; 0xA1]%N 1 1 4;
                           SAddMap [97; 97; 0xA6; 0xA1]%N 2 1 4; SAddMap [1; 1; 0xA6; 0xA1]%N 3 1 4] else None.
Lemma twin_sound : sound_firmware 1 twin /\ same_size 1 4 twin.
Proof.
  split; [split|].
  - eexists. reflexivity.
  - intros i cs E1. unfold twin in E1. destruct (N.eqb_spec i 0); inv E1. split; [lia|]. apply (sound_b_ok 1 1 4); vm_compute; reflexivity.
  - intros i cs mi E1 Hm. unfold twin in E1. destruct (i =? 0)%N; inv E1. do 4 (destruct mi as [|mi]; [eexists; vm_compute; reflexivity|]). lia.
Qed.
Definition chars (x : N) : bool := (x <? 0xA0)%N.
Lemma twin_sharing : sharing twin 1 4 chars 2 /\ sharing twin 1 4 (fun _ => true) 8.
Proof.
  split.
  - intros e x K HX. unfold chars in HX. unfold code_in, twin in *. destruct (e_kb e =? 0)%N; [|congruence].
    assert (M : map_in e < 4) by (unfold map_in; destruct (e_ctrl e), (e_shift e || e_lock e), (e_caps e); lia).
    destruct (map_in e) as [|[|[|[|n]]]]; [| | | |lia]; match goal with |- context [table_of ?c ?m] => let v := eval vm_compute in (table_of c m) in change (table_of c m) with v end; cbn [filter fst snd Nat.mul Nat.add nth app list_prod map seq];
      replace (166 =? x)%N with false by lia; replace (161 =? x)%N with false by lia;
      match goal with |- context [(?a =? x)%N] => destruct (a =? x)%N end; cbn; lia.
  - intros e x _ _. eapply Nat.le_trans with 4; [|lia]. change 4 with (length (list_prod (seq 0 1) (seq 0 4))) at 2. generalize (list_prod (seq 0 1) (seq 0 4)). intros l.
    induction l as [|k l IH]; [cbn; lia|]. cbn [filter]. destruct (_ =? _)%N; cbn [length]; lia.
Qed.
(** Both keys and REPEAT held: four repeats in 140 scans. *)
Definition both : list (nat * nat) := [(0, 2); (0, 0); (0, 1)].
Example C138_example :
  sharing twin 1 4 chars 2 /\ typed_in twin 1 4 (hold 12 [(0, 2)] ++ hold 12 both) (hold 140 both) = [97; 97; 97; 97]%N /\
  transitions 1 4 (hold 12 [(0, 2)] ++ hold 12 both) (hold 140 both) = [] /\
  obs sent (c_run twin (hold 12 [(0, 2)] ++ hold 152 both)) = Some [97; 97; 97; 97; 97; 97]%N.
Proof. split; [exact (proj1 twin_sharing)|]. split; [vm_compute; reflexivity|]. split; vm_compute; reflexivity. Qed.
(** So it matters how many keys bear the same code: as if no two did, the bound
    would be three. *)
Theorem C138_same_code_refuted : exists kbs pre rds, sound_firmware 1 kbs /\ same_size 1 4 kbs /\ transitions 1 4 pre rds = [] /\
  66 * count chars (typed_in kbs 1 4 pre rds) > 66 * 0 + 1 * (length rds + 0) + 65.
Proof.
  exists twin, (hold 12 [(0, 2)] ++ hold 12 both), (hold 140 both). split; [apply twin_sound|]. split; [apply twin_sound|]. split; [vm_compute; reflexivity|].
  replace (typed_in twin 1 4 (hold 12 [(0, 2)] ++ hold 12 both) (hold 140 both)) with [97; 97; 97; 97]%N by (vm_compute; reflexivity).
  replace (length (hold 140 both)) with 140 by (vm_compute; reflexivity). vm_compute. lia.
Qed.
Print Assumptions C138_same_code_refuted.
(** Someone at work with at most 12 moves in all. *)
Example C138_pace_example :
  let rds := hold 12 [(0, 2)] ++ hold 100 both ++ hold 12 [(0, 0); (0, 3)] ++ hold 12 [(0, 0); (0, 1); (0, 3)] ++ hold 30 [] in
  sharing twin 1 4 (fun _ => true) 8 /\ mute (work twin 1 4 rds) /\
  (forall a m b, rds = a ++ m ++ b -> m <> [] -> 2 * length (transitions 1 4 a m) <= length m + 24) /\
  concat (map fst (work twin 1 4 rds)) = [97; 97; 97; 97; 65]%N /\
  obs (fun s => (sent s, key_queue s)) (c_run twin rds) = Some ([97; 97; 97; 97; 65]%N, []).
Proof.
  cbv zeta. split; [exact (proj2 twin_sharing)|]. split; [|split; [|split; vm_compute; reflexivity]].
  - apply Forall_forall. intros p I.
    match goal with I : In p ?w |- _ => assert (B : forallb (fun p => match snd p with [] => true | _ => false end) w = true) by (vm_compute; reflexivity) end.
    rewrite forallb_forall in B. specialize (B _ I). destruct (snd p); [reflexivity|discriminate B].
  - intros a m b E _. match type of E with ?r = _ => assert (L : length (transitions 1 4 [] r) <= 12) by (vm_compute; lia) end.
    rewrite E, !moves_over, !app_length in L. cbn [app] in L. lia.
Qed.
