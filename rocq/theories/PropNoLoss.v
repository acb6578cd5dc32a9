(** When keystrokes are lost and how long they wait, under any keymaps (C133, C134). *)
From Coq Require Import List NArith ZArith Arith Bool Lia.
From Coq Require Import ZifyBool ZifyNat ZifyN.
From Verif Require Import Base Lib Buffer Repeat Devices Modifiers Hook KeymapData Asdf KeySpec Obs PropDebounce
     Custom CustomSpec CustomRef PropCustom PropEvents PropFlow PropExact PropSession PropAnyPace PropSpeak.
Import ListNotations.

(** ** Specification *)
Section Spec.
Variable kbs : N -> option (list setup_cmd).
Variable R C : nat.
(** What a message hook of the selected keyboard prints, in full. *)
Definition full_message (e : setting) (id : nat) : list N :=
  match kbs (e_kb e) with Some cs => new_lines (shown (message_of cs id)) | None => [] end.
(** The code a move of a key types: a press, its code if that is no action; a key
    held, its code when a repeat is due. *)
Definition typed_by (t : typist) (v : nat * nat * move) : list N :=
  let '(r, c, m) := v in
  let x := code_in kbs (t_set t) r c in
  match m with
  | Press => if (x <=? 0xA0)%N then [x] else []
  | Held => if (x =? t_last t)%N && (t_left t =? 1)%N then [x] else []
  | Release => []
  end.
(** The message it calls up. *)
Definition said_by (t : typist) (v : nat * nat * move) : list N :=
  let '(r, c, m) := v in
  let x := code_in kbs (t_set t) r c in
  match m, decode x with
  | Press, AHereIs => full_message (t_set t) 5
  | Press, AFn n => if n <=? 10 then full_message (t_set t) (4 + n) else []
  | _, _ => []
  end.
Fixpoint all_by (f : typist -> nat * nat * move -> list N) (l : list (nat * nat * move)) (t : typist) : list N :=
  match l with [] => [] | v :: l => f t v ++ all_by f l (moved kbs t v) end.
(** For each scan the codes typed and the message characters called up. *)
Fixpoint works (pre rds : list (nat -> N)) (t : typist) : list (list N * list N) :=
  match rds with
  | [] => []
  | rd :: l =>
      let t0 := scan_starts kbs t in
      let ms := scan_moves R C pre rd in
      (all_by typed_by ms t0, full_message (t_set t) 4 ++ all_by said_by ms t0) :: works (pre ++ [rd]) l (fold_left (moved kbs) ms t0)
  end.
Definition work (rds : list (nat -> N)) : list (list N * list N) := works [] rds (starts kbs).
End Spec.

(** Two counters: of codes and of message characters waiting.  A scan takes one
    away, messages first; there is room for 16 and for 128. *)
Fixpoint room (w : list (list N * list N)) (k m : nat) : Prop :=
  match w with
  | [] => True
  | (o, p) :: w =>
      let k' := (if m =? 0 then k - 1 else k) + length o in
      let m' := (m - 1) + length p in
      k' <= 16 /\ m' <= 128 /\ room w k' m'
  end.
(** No scan, and no row of scans, brings more than fits: any n scans in a row
    bring at most n + 15 codes. *)
Definition bursts (os : list (list N)) : Prop :=
  forall a w b, os = a ++ w ++ b -> w <> [] -> length (concat w) <= length w + 15.

(** ** Proofs *)
Lemma enter_app : forall cap a b q, enter cap (a ++ b) q = enter cap b (enter cap a q).
Proof. intros cap a. induction a as [|x a IH]; intros b q; [reflexivity|]. cbn [app enter]. apply IH. Qed.
Lemma enter_fits : forall cap l q, length q + length l <= cap -> enter cap l q = q ++ l.
Proof. intros cap l q HL. rewrite enter_nil, firstn_all2 by lia. reflexivity. Qed.
Lemma enter_bound : forall cap l q, length q <= cap -> length (enter cap l q) <= cap.
Proof. intros cap l q HL. rewrite enter_nil, app_length. pose proof (firstn_le_length (cap - length q) l). pose proof (firstn_length (cap - length q) l). lia. Qed.

(** The two queues alone. *)
Fixpoint post (w : list (list N * list N)) (k m out : list N) : list N * list N * list N :=
  match w with
  | [] => (k, m, out)
  | (o, p) :: w =>
      if (hd 0xA0 m =? 0xA0)%N
      then post w (enter 16 o (tl k)) (enter 128 p (tl m)) (out ++ visible (firstn 1 k))
      else post w (enter 16 o k) (enter 128 p (tl m)) (out ++ visible (firstn 1 m))
  end.

Section Post.
Variable kbs : N -> option (list setup_cmd).
Variable R C : nat.
Lemma prints_msgs : forall id t, t_msgs (prints kbs id t) = enter 128 (full_message kbs (t_set t) id) (t_msgs t) /\
  t_keys (prints kbs id t) = t_keys t /\ t_set (prints kbs id t) = t_set t /\ t_out (prints kbs id t) = t_out t.
Proof. intros id t. unfold prints, full_message. destruct (kbs (e_kb (t_set t))); auto. Qed.
Lemma moved_queues : forall t v, t_keys (moved kbs t v) = enter 16 (typed_by kbs t v) (t_keys t) /\
  t_msgs (moved kbs t v) = enter 128 (said_by kbs t v) (t_msgs t).
Proof.
  intros t [[r c] m]. cbn [moved typed_by said_by]. set (x := code_in kbs (t_set t) r c). cbv zeta.
  assert (Y : forall t, t_keys (types x t) = enter 16 [x] (t_keys t) /\ t_msgs (types x t) = t_msgs t).
  { intros t0. unfold types. destruct (x =? t_last t0)%N; auto. }
  assert (LO : (x <=? 0xA0)%N = true -> match decode x with AHereIs | AFn _ => False | _ => True end).
  { intros L. unfold decode. repeat match goal with |- context [if ?b then _ else _] => destruct b eqn:?; try exact I; try lia end. }
  destruct m.
  - unfold on_press. destruct (x <=? 0xA0)%N eqn:L.
    + destruct (Y t) as [-> ->]. split; [reflexivity|]. specialize (LO eq_refl). destruct (decode x); try contradiction; reflexivity.
    + clear LO. destruct (decode x); try (split; reflexivity); try (destruct (_ || _); split; reflexivity);
        try (match goal with |- context [if ?b then prints _ _ _ else _] => destruct b end; [|split; reflexivity]);
        match goal with |- context [prints kbs ?id t] => destruct (prints_msgs id t) as (->&->&_) end; split; reflexivity.
  - unfold on_release. destruct (x <=? 0xA0)%N.
    + split; destruct (x =? t_last t)%N; reflexivity.
    + split; destruct (decode x); reflexivity.
  - unfold on_held. destruct (x =? t_last t)%N eqn:EL; cbn [andb].
    + destruct (N.eqb_spec (t_left t) 1) as [-> |NE].
      * cbn [N.ltb N.compare]. destruct (Y (beats (t_fast t) (t_auto t) 66 t)) as [-> ->]. split; reflexivity.
      * destruct (0 <? t_left t)%N; split; reflexivity.
    + split; reflexivity.
Qed.
Lemma fold_queues : forall l t, t_keys (fold_left (moved kbs) l t) = enter 16 (all_by kbs (typed_by kbs) l t) (t_keys t) /\
  t_msgs (fold_left (moved kbs) l t) = enter 128 (all_by kbs (said_by kbs) l t) (t_msgs t).
Proof.
  intros l. induction l as [|v l IH]; intros t; [split; reflexivity|]. cbn [fold_left all_by]. destruct (IH (moved kbs t v)) as [-> ->].
  destruct (moved_queues t v) as [-> ->]. rewrite !enter_app. split; reflexivity.
Qed.
Lemma sends_post : forall t, (t_keys (sends_one t), t_msgs (sends_one t), t_out (sends_one t)) =
  if (hd 0xA0 (t_msgs t) =? 0xA0)%N then (tl (t_keys t), tl (t_msgs t), t_out t ++ visible (firstn 1 (t_keys t)))
  else (t_keys t, tl (t_msgs t), t_out t ++ visible (firstn 1 (t_msgs t))).
Proof.
  intros t. unfold sends_one. cbv zeta. destruct (hd 0xA0 (t_msgs t) =? 0xA0)%N eqn:E; cbn [t_keys t_msgs t_out].
  - destruct (t_keys t) as [|x k]; cbn [hd firstn visible filter]; [reflexivity|]. destruct (x <? 0xA0)%N; reflexivity.
  - destruct (t_msgs t) as [|x k]; cbn [hd firstn visible filter] in *; [discriminate E|]. destruct (x <? 0xA0)%N; reflexivity.
Qed.
Lemma set_kept : forall t, t_set (sends_one t) = t_set t.
Proof. intros t. unfold sends_one. cbv zeta. destruct (_ =? _)%N; reflexivity. Qed.
Lemma outs_kept : forall l t, t_out (fold_left (moved kbs) l t) = t_out t.
Proof.
  intros l. induction l as [|[[r c] m] l IH]; intros t; [reflexivity|]. cbn [fold_left]. rewrite IH. cbn [moved].
  generalize (code_in kbs (t_set t) r c). intros x. assert (Y : forall t, t_out (types x t) = t_out t) by (intros t0; unfold types; destruct (x =? _)%N; reflexivity).
  destruct m.
  - unfold on_press. destruct (x <=? 0xA0)%N; [apply Y|]. destruct (decode x); try reflexivity; try apply prints_msgs; try (destruct (_ || _); reflexivity).
    match goal with |- context [if ?b then _ else _] => destruct b end; [apply prints_msgs|reflexivity].
  - unfold on_release. destruct (x <=? 0xA0)%N; [destruct (x =? _)%N; reflexivity|]. destruct (decode x); reflexivity.
  - unfold on_held. destruct (_ && _); [|reflexivity]. destruct (_ =? 1)%N; [rewrite Y|]; reflexivity.
Qed.
Lemma scans_post : forall rds pre t,
  (t_keys (scans kbs R C pre rds t), t_msgs (scans kbs R C pre rds t), t_out (scans kbs R C pre rds t)) =
  post (works kbs R C pre rds t) (t_keys t) (t_msgs t) (t_out t).
Proof.
  intros rds. induction rds as [|rd rds IH]; intros pre t; [reflexivity|]. cbn [scans works]. cbv zeta. cbn [post]. rewrite IH.
  destruct (fold_queues (scan_moves R C pre rd) (scan_starts kbs t)) as [-> ->]. rewrite outs_kept.
  destruct (prints_msgs 4 (sends_one t)) as (P1&P2&_&P3). fold (scan_starts kbs t) in P1, P2, P3. rewrite P1, P2, P3. rewrite set_kept.
  pose proof (sends_post t) as SP. rewrite enter_app. destruct (hd 0xA0 (t_msgs t) =? 0xA0)%N; congruence.
Qed.
Lemma works_app : forall a b pre t, works kbs R C pre (a ++ b) t = works kbs R C pre a t ++ works kbs R C (pre ++ a) b (scans kbs R C pre a t).
Proof.
  intros a. induction a as [|rd a IH]; intros b pre t; cbn [app works scans]; [rewrite app_nil_r; reflexivity|]. cbv zeta. f_equal.
  rewrite IH, <- app_assoc. reflexivity.
Qed.
Lemma works_length : forall rds pre t, length (works kbs R C pre rds t) = length rds.
Proof. intros rds. induction rds as [|rd rds IH]; intros pre t; [reflexivity|]. cbn [works length]. cbv zeta. rewrite IH. reflexivity. Qed.
End Post.

Lemma post_app : forall a b k m out, post (a ++ b) k m out = let '(k', m', out') := post a k m out in post b k' m' out'.
Proof. intros a. induction a as [|[o p] a IH]; intros b k m out; [reflexivity|]. cbn [app post]. destruct (_ =? _)%N; apply IH. Qed.
Lemma post_bound : forall w k m out, length k <= 16 -> length m <= 128 ->
  length (fst (fst (post w k m out))) <= 16 /\ length (snd (fst (post w k m out))) <= 128.
Proof.
  intros w. induction w as [|[o p] w IH]; intros k m out HK HM; [auto|]. cbn [post].
  assert (L : forall A (l : list A), length (tl l) <= length l) by (intros A []; cbn; lia).
  pose proof (L _ k). pose proof (L _ m). destruct (_ =? _)%N; apply IH; apply enter_bound; lia.
Qed.
Lemma visible_app : forall a b, visible (a ++ b) = visible a ++ visible b.
Proof. intros. apply filter_app. Qed.

(** Nothing is lost as long as there is room. *)
Lemma post_room : forall w k m out K M, room w (length k) (length m) -> ~ In 0xA0%N m -> Forall (fun p => ~ In 0xA0%N (snd p)) w ->
  shuffle (visible K) (visible M) out ->
  exists ks ms k' m' out', post w k m out = (k', m', out') /\ k ++ concat (map fst w) = ks ++ k' /\ m ++ concat (map snd w) = ms ++ m' /\
    shuffle (visible (K ++ ks)) (visible (M ++ ms)) out'.
Proof.
  intros w. induction w as [|[o p] w IH]; intros k m out K M HR HM HW HS.
  - exists [], [], k, m, out. cbn [post map concat]. rewrite !app_nil_r. auto.
  - cbn [room] in HR. cbv zeta in HR. destruct HR as (R1&R2&HR). inv HW. rename H1 into HP, H2 into HW. cbn [snd] in HP. cbn [post map concat fst snd].
    destruct m as [|x m].
    + cbn [hd length Nat.eqb tl] in *. rewrite N.eqb_refl.
      assert (LK : length (tl k) = length k - 1) by (destruct k; cbn; lia).
      rewrite (enter_fits 16) by lia. rewrite (enter_fits 128) by (cbn [length]; lia). cbn [app].
      destruct (IH (tl k ++ o) p (out ++ visible (firstn 1 k)) (K ++ firstn 1 k) M) as (ks&ms&k'&m'&out'&E&EK&EM&SH).
      * rewrite app_length, LK. exact HR.
      * exact HP.
      * exact HW.
      * destruct k as [|y k]; cbn [firstn]; [cbn [visible filter]; rewrite !app_nil_r; exact HS|]. rewrite visible_app. cbn [visible filter].
        destruct (y <? 0xA0)%N; [apply shuffle_l; exact HS|rewrite !app_nil_r; exact HS].
      * exists (firstn 1 k ++ ks), ms, k', m', out'. split; [exact E|]. split; [|split; [exact EM|rewrite app_assoc; exact SH]].
        rewrite <- !app_assoc in *. rewrite <- EK. destruct k; reflexivity.
    + cbn [hd length Nat.eqb tl] in *. assert (NX : x <> 0xA0%N) by (intros ->; apply HM; left; reflexivity).
      replace (x =? 0xA0)%N with false by lia. rewrite (enter_fits 16) by lia. rewrite (enter_fits 128) by lia.
      destruct (IH (k ++ o) (m ++ p) (out ++ visible (firstn 1 (x :: m))) K (M ++ [x])) as (ks&ms&k'&m'&out'&E&EK&EM&SH).
      * rewrite !app_length. replace (length m) with (S (length m) - 1) by lia. exact HR.
      * rewrite in_app_iff. intros [I|I]; [apply HM; right; exact I|exact (HP I)].
      * exact HW.
      * cbn [firstn]. rewrite visible_app. cbn [visible filter]. destruct (x <? 0xA0)%N; [apply shuffle_r; exact HS|rewrite !app_nil_r; exact HS].
      * exists ks, (x :: ms), k', m', out'. split; [exact E|]. rewrite <- !app_assoc in *. cbn [app] in *. split; [exact EK|]. split; [f_equal; exact EM|exact SH].
Qed.

(** No messages. *)
Fixpoint fits (os : list (list N)) (k : nat) : Prop :=
  match os with [] => True | o :: os => (k - 1) + length o <= 16 /\ fits os ((k - 1) + length o) end.
Lemma fits_prefix : forall w b k, fits (w ++ b) k -> w <> [] -> (k - 1) + length (concat w) <= length w + 15.
Proof.
  intros w. induction w as [|o w IH]; intros b k HF NE; [congruence|]. cbn [app fits concat length] in *. destruct HF as [F1 F2]. rewrite app_length.
  destruct w as [|o' w]; [cbn [concat length] in *; lia|]. specialize (IH b _ F2 ltac:(discriminate)). lia.
Qed.
Lemma fits_tail : forall a w k, fits (a ++ w) k -> exists k', fits w k'.
Proof. intros a. induction a as [|o a IH]; intros w k HF; [eauto|]. cbn [app fits] in HF. destruct HF as [_ HF]. eauto. Qed.
Lemma fits_bursts : forall os k, fits os k -> bursts os.
Proof.
  intros os k HF a w b -> NE. destruct (fits_tail _ _ _ HF) as [k' HW]. pose proof (fits_prefix _ _ _ HW NE). lia.
Qed.
Lemma bursts_fits : forall os k, (forall w b, os = w ++ b -> w <> [] -> (k - 1) + length (concat w) <= length w + 15) -> bursts os -> fits os k.
Proof.
  intros os. induction os as [|o os IH]; intros k HP HB; [exact I|]. cbn [fits]. split.
  - specialize (HP [o] os eq_refl ltac:(discriminate)). cbn [concat length] in HP. rewrite app_length in HP. cbn [length] in HP. lia.
  - apply IH.
    + intros w b -> NE. destruct (Nat.eq_dec (k - 1 + length o) 0) as [Z|NZ].
      * rewrite Z. apply (HB [o] w b eq_refl NE).
      * specialize (HP (o :: w) b eq_refl ltac:(discriminate)). cbn [concat length] in HP. rewrite app_length in HP. lia.
    + intros a w b -> NE. apply (HB (o :: a) w b eq_refl NE).
Qed.
Lemma bursts_iff : forall os, bursts os <-> fits os 0.
Proof.
  intros os. split; [|apply fits_bursts]. intros HB. apply bursts_fits; [|exact HB]. intros w b E NE. apply (HB [] w b E NE).
Qed.
Definition mute (w : list (list N * list N)) : Prop := Forall (fun p => snd p = []) w.
Lemma fits_room : forall w k, mute w -> (fits (map fst w) k <-> room w k 0).
Proof.
  intros w. induction w as [|[o p] w IH]; intros k HM; [split; intros; exact I|]. inv HM. cbn [snd] in H1. subst p. cbn [map fst fits room length Nat.eqb]. cbv zeta.
  rewrite IH by exact H2. cbn. intuition lia.
Qed.
Lemma mute_post : forall w k out, mute w -> length k <= 16 -> exists k' l, post w k [] out = (k', [], out ++ visible l) /\
  length l + length k' <= length k + length (concat (map fst w)) /\
  (~ fits (map fst w) (length k) -> length l + length k' < length k + length (concat (map fst w))).
Proof.
  intros w. induction w as [|[o p] w IH]; intros k out HM HK.
  - exists k, []. cbn [post map concat length visible filter fits]. rewrite app_nil_r. split; [reflexivity|]. split; [lia|]. intros X. contradiction X. exact I.
  - inv HM. cbn [snd] in H1. subst p. cbn [post hd tl enter map fst concat]. rewrite N.eqb_refl. rewrite app_length.
    assert (LK : length (tl k) = length k - 1) by (destruct k; cbn; lia).
    assert (LE : length (enter 16 o (tl k)) = Nat.min 16 (length k - 1 + length o)).
    { rewrite enter_nil, app_length, firstn_length, LK. lia. }
    destruct (IH (enter 16 o (tl k)) (out ++ visible (firstn 1 k)) H2 ltac:(lia)) as (k'&l&E&L1&L2). rewrite LE in L1, L2.
    exists k', (firstn 1 k ++ l). rewrite E. split; [rewrite visible_app, app_assoc; reflexivity|]. rewrite app_length, firstn_length.
    split; [lia|]. cbn [fits]. intros NF. destruct (Nat.le_gt_cases (length k - 1 + length o) 16) as [L|L]; [|lia].
    rewrite Nat.min_r in L2 by lia. specialize (L2 ltac:(intros X; apply NF; split; [lia|exact X])). lia.
Qed.

(** ** C133 *)
Section Run.
Variable kbs : N -> option (list setup_cmd).
Variable R C : nat.
Hypothesis sound : sound_firmware R kbs.
Hypothesis size : same_size R C kbs.
Lemma run_post : forall rds s, c_run kbs rds = Ok s ->
  post (work kbs R C rds) [] [] [] = (key_queue s, msg_queue s, sent s).
Proof.
  intros rds s ES. pose proof (C104_exact R C kbs rds s sound size ES) as EO. unfold output_of in EO.
  destruct (run_ok_g R kbs sound rds) as (g&s'&E1&T1&E2&RL). rewrite ES in E2. inv E2.
  destruct (exact_run kbs R C sound size rds) as [g' (E3&[_ X])]. rewrite E1 in E3. inv E3. apply core_is in X. destruct X as (_&_&XK&XM&_).
  rewrite (queue_g _ _ RL), XM, EO. replace (key_queue s') with (t_keys (scans kbs R C [] rds (starts kbs))).
  - symmetry. apply scans_post.
  - rewrite <- XK. symmetry. destruct RL as [_ H]. unfold key_queue. rewrite (rs_hkey _ _ H). apply (waiting_ok _ _ 0 _ (rs_buf _ _ H) eq_refl).
Qed.
End Run.

(** With room, all codes typed and all message characters called up are sent or
    still waiting, each kind in its order. *)
Theorem C133_nothing_lost : forall R C kbs rds s, sound_firmware R kbs -> same_size R C kbs -> c_run kbs rds = Ok s ->
  room (work kbs R C rds) 0 0 -> Forall (fun p => ~ In 0xA0%N (snd p)) (work kbs R C rds) ->
  exists k m, shuffle (visible k) (visible m) (sent s) /\
    concat (map fst (work kbs R C rds)) = k ++ key_queue s /\ concat (map snd (work kbs R C rds)) = m ++ msg_queue s.
Proof.
  intros R C kbs rds s HS HZ ES HR HW. pose proof (run_post kbs R C HS HZ rds s ES) as EP.
  destruct (post_room (work kbs R C rds) [] [] [] [] [] HR (fun X => X) HW shuffle_nil) as (ks&ms&k'&m'&out'&E&EK&EM&SH).
  rewrite EP in E. inv E. exists ks, ms. auto.
Qed.
Print Assumptions C133_nothing_lost.

Fixpoint room_b (w : list (list N * list N)) (k m : nat) : bool :=
  match w with
  | [] => true
  | (o, p) :: w =>
      let k' := (if m =? 0 then k - 1 else k) + length o in
      let m' := (m - 1) + length p in
      (k' <=? 16) && (m' <=? 128) && room_b w k' m'
  end.
Lemma room_b_ok : forall w k m, room_b w k m = true -> room w k m.
Proof.
  intros w. induction w as [|[o p] w IH]; intros k m HB; [exact I|]. cbn [room_b room] in *. cbv zeta in *.
  apply andb_true_iff in HB. destruct HB as [B1 B2]. split; [lia|]. split; [lia|]. apply IH. exact B2.
Qed.
(** Two letters, HERE IS with the second held, and a key typed while the message
    is being sent. *)
Definition chatting : list (nat -> N) :=
  hold 12 [(0, 0)] ++ hold 12 [(0, 0); (0, 1)] ++ hold 11 [(0, 1); (0, 5)] ++ hold 12 [(0, 5); (0, 0)] ++ hold 1 [].
Example C133_example : room (work desk 1 8 chatting) 0 0 /\ Forall (fun p => ~ In 0xA0%N (snd p)) (work desk 1 8 chatting) /\
  concat (map fst (work desk 1 8 chatting)) = [97; 98; 97]%N /\ concat (map snd (work desk 1 8 chatting)) = [72; 13; 10]%N /\
  obs sent (c_run desk chatting) = Some [97; 98; 72; 13; 10; 97]%N.
Proof.
  split; [apply room_b_ok; vm_compute; reflexivity|]. split; [|split; [|split]; vm_compute; reflexivity].
  apply Forall_forall. intros p I J. assert (B : forallb (fun p => forallb (fun x => negb (x =? 0xA0)%N) (snd p)) (work desk 1 8 chatting) = true) by (vm_compute; reflexivity).
  rewrite forallb_forall in B. specialize (B p I). rewrite forallb_forall in B. specialize (B _ J). discriminate B.
Qed.

(** Without messages: keystrokes and repeats, all of them characters, followed by
    16 scans in which nothing is typed, are all sent exactly if no n scans in a row
    brought more than n + 15 of them. *)
Theorem C133_lost_exactly_in_bursts : forall R C kbs rds s w idle, sound_firmware R kbs -> same_size R C kbs -> c_run kbs rds = Ok s ->
  work kbs R C rds = w ++ repeat ([], []) idle -> 16 <= idle -> mute w -> Forall (fun x => x < 0xA0)%N (concat (map fst w)) ->
  (sent s = concat (map fst w) <-> bursts (map fst w)) /\
  (~ bursts (map fst w) -> length (sent s) < length (concat (map fst w))).
Proof.
  intros R C kbs rds s w idle HS HZ ES EW HI HM HV. pose proof (run_post kbs R C HS HZ rds s ES) as EP. rewrite EW, post_app in EP.
  destruct (post w [] [] []) as [[k0 m0] out0] eqn:E0.
  destruct (mute_post w [] [] HM ltac:(cbn; lia)) as (k1&l&E1&L1&L2). rewrite E0 in E1. inv E1.
  pose proof (post_bound w [] [] [] ltac:(cbn; lia) ltac:(cbn; lia)) as [B _]. rewrite E0 in B. cbn [fst] in B.
  (* the idle scans send what waits *)
  assert (DR : forall n k out, length k <= n -> post (repeat ([], []) n) k [] out = ([], [], out ++ visible k)).
  { induction n as [|n IH]; intros k out L.
    - destruct k; [|cbn in L; lia]. cbn. rewrite app_nil_r. reflexivity.
    - cbn [repeat post hd tl enter]. rewrite N.eqb_refl. rewrite IH by (destruct k; cbn in *; lia). f_equal. rewrite <- app_assoc, <- visible_app. destruct k; reflexivity. }
  rewrite DR in EP by lia. inv EP. cbn [app] in *. rewrite <- visible_app.
  assert (LV : length (visible (l ++ k1)) <= length l + length k1).
  { rewrite <- app_length. generalize (l ++ k1). intros x. induction x as [|y x IH]; [cbn; lia|]. cbn [visible filter]. destruct (y <? 0xA0)%N; cbn [length] in *; unfold visible in IH; lia. }
  cbn [length plus] in L1, L2. rewrite bursts_iff. split; [|intros NF; specialize (L2 NF); lia]. split; intros X.
  - destruct (Nat.eq_dec (length l + length k1) (length (concat (map fst w)))) as [EQ|NE].
    + assert (DN : ~ ~ fits (map fst w) 0) by (intros Y; specialize (L2 Y); lia).
      assert (DE : forall os k, {fits os k} + {~ fits os k}).
      { clear. induction os as [|o os IH]; intros k; [left; exact I|]. cbn [fits]. destruct (le_dec (k - 1 + length o) 16), (IH (k - 1 + length o)); tauto. }
      destruct (DE (map fst w) 0); tauto.
    + pose proof (f_equal (@length N) X) as XL. lia.
  - assert (HW : Forall (fun p => ~ In 0xA0%N (snd p)) w).
    { unfold mute in HM. rewrite Forall_forall in *. intros p I J. rewrite (HM p I) in J. exact J. }
    destruct (post_room w [] [] [] [] [] (proj1 (fits_room w 0 HM) X) (fun X => X) HW shuffle_nil) as (ks&ms&k'&m'&out'&E&EK&EM&SH).
    rewrite E0 in E. inv E. cbn [app] in *.
    assert (MS : ms = []). { destruct ms; [reflexivity|]. exfalso. revert EM. clear -HM. induction HM as [|[o p] w HP HM IH]; cbn [map concat snd] in *; [discriminate|]. subst p. exact IH. }
    subst ms. pose proof (shuffle_alone _ _ _ SH eq_refl) as Y. rewrite visible_app, Y, <- visible_app, <- EK.
    clear -HV. induction HV as [|x t Hx HV IH]; [reflexivity|]. cbn [visible filter]. replace (x <? 0xA0)%N with true by lia. f_equal. exact IH.
Qed.
Print Assumptions C133_lost_exactly_in_bursts.

(** A keyboard of 24 letters. *)
Definition letters : list N := map N.of_nat (seq 97 24).
Definition wide (i : N) : option (list setup_cmd) :=
  if (i =? 0)%N then Some [SAddMap letters 0 3 8; SAddMap letters 1 3 8; SAddMap letters 2 3 8; SAddMap letters 3 3 8] else None.
Lemma wide_sound : sound_firmware 3 wide /\ same_size 3 8 wide.
Proof.
  split; [split|].
  - eexists. reflexivity.
  - intros i cs E1. unfold wide in E1. destruct (N.eqb_spec i 0); inv E1. split; [lia|]. apply (sound_b_ok 3 3 8); vm_compute; reflexivity.
  - intros i cs mi E1 Hm. unfold wide in E1. destruct (i =? 0)%N; inv E1. do 4 (destruct mi as [|mi]; [eexists; vm_compute; reflexivity|]). lia.
Qed.
(** Keys 0 to k-1 struck in the same scan, and key k two scans later. *)
Definition flat_hands (k : nat) : list (nat * nat) := map (fun i => (Nat.div i 8, Nat.modulo i 8)) (seq 0 k).
Definition slap (k : nat) : list (nat -> N) := hold 2 (flat_hands k) ++ hold 12 (flat_hands (S k)) ++ hold 30 [].
(** 17 codes in 3 scans are all sent, 20 are not. *)
Example C133_burst_example :
  (exists w, work wide 3 8 (slap 16) = w ++ repeat ([], []) 16 /\ mute w /\ Forall (fun x => x < 0xA0)%N (concat (map fst w)) /\
     bursts (map fst w) /\ concat (map fst w) = map N.of_nat (seq 97 17)) /\
  (exists w, work wide 3 8 (slap 19) = w ++ repeat ([], []) 16 /\ mute w /\ Forall (fun x => x < 0xA0)%N (concat (map fst w)) /\
     ~ bursts (map fst w) /\ concat (map fst w) = map N.of_nat (seq 97 20)) /\
  obs sent (c_run wide (slap 16)) = Some (map N.of_nat (seq 97 17)) /\
  obs sent (c_run wide (slap 19)) = Some (map N.of_nat (seq 97 16 ++ [116])).
Proof.
  split; [exists (firstn 28 (work wide 3 8 (slap 16)))|split; [exists (firstn 28 (work wide 3 8 (slap 19)))|split; vm_compute; reflexivity]].
  - split; [vm_compute; reflexivity|]. split; [vm_compute; repeat constructor|]. split; [vm_compute; repeat constructor|]. split; [|vm_compute; reflexivity].
    apply bursts_iff. vm_compute. intuition lia.
  - split; [vm_compute; reflexivity|]. split; [vm_compute; repeat constructor|]. split; [vm_compute; repeat constructor|]. split; [|vm_compute; reflexivity].
    rewrite bursts_iff. vm_compute. intuition lia.
Qed.

(** ** C134 *)
(** Whatever was done before: what waits is sent in its turn, one a scan, the
    message first, whatever is typed meanwhile, if no message is called up. *)
Theorem C134_exact_delay : forall R C kbs pre rds s s', sound_firmware R kbs -> same_size R C kbs ->
  c_run kbs pre = Ok s -> c_run kbs (pre ++ rds) = Ok s' ->
  mute (skipn (length pre) (work kbs R C (pre ++ rds))) -> ~ In 0xA0%N (msg_queue s) ->
  length rds <= length (msg_queue s) + length (key_queue s) ->
  sent s' = sent s ++ visible (firstn (length rds) (msg_queue s)) ++ visible (firstn (length rds - length (msg_queue s)) (key_queue s)).
Proof.
  intros R C kbs pre rds s s' HS HZ ES ES' HM HA HL. pose proof (run_post kbs R C HS HZ pre s ES) as EP. pose proof (run_post kbs R C HS HZ _ s' ES') as EP'.
  unfold work in *. rewrite works_app in EP', HM. rewrite <- (works_length kbs R C pre [] (starts kbs)) in HM. rewrite skipn_app, skipn_all, Nat.sub_diag in HM.
  cbn [app skipn] in HM. rewrite post_app, EP in EP'. cbn [app] in EP'.
  set (w := works kbs R C pre rds (scans kbs R C [] pre (starts kbs))) in *.
  assert (LW : length w = length rds) by apply works_length. rewrite <- LW in *. clearbody w. clear EP ES ES' LW HS HZ.
  revert EP' HM HA HL. generalize (key_queue s') (msg_queue s') (sent s'). generalize (key_queue s) (msg_queue s) (sent s). clear.
  induction w as [|[o p] w IH]; intros k m out k' m' out' E HM HA HL.
  - cbn [post] in E. inv E. cbn [length firstn visible filter app Nat.sub]. rewrite app_nil_r. reflexivity.
  - inv HM. cbn [snd] in H1. subst p. cbn [post length enter] in *. destruct m as [|x m].
    + cbn [hd tl length plus] in *. rewrite N.eqb_refl in E. destruct k as [|y k]; [cbn in HL; lia|]. cbn [tl length] in *.
      rewrite enter_nil in E. assert (LK : length w <= length (@nil N) + length (k ++ firstn (16 - length k) o)) by (cbn [length plus]; rewrite app_length; lia).
      rewrite (IH _ _ _ _ _ _ E H2 HA LK). rewrite !firstn_nil. cbn [visible filter app length]. rewrite !Nat.sub_0_r.
      rewrite firstn_app. replace (length w - length k) with 0 by lia. cbn [firstn app visible filter]. rewrite app_nil_r.
      destruct (y <? 0xA0)%N; rewrite <- app_assoc; reflexivity.
    + cbn [hd tl length] in *. assert (NX : x <> 0xA0%N) by (intros ->; apply HA; left; reflexivity). replace (x =? 0xA0)%N with false in E by lia.
      rewrite enter_nil in E. assert (LK : length w <= length m + length (k ++ firstn (16 - length k) o)) by (rewrite app_length; lia).
      assert (HA' : ~ In 0xA0%N m) by (intros I; apply HA; right; exact I).
      rewrite (IH _ _ _ _ _ _ E H2 HA' LK). cbn [firstn visible filter Nat.sub]. rewrite firstn_app.
      replace (length w - length m - length k) with 0 by lia. cbn [firstn app]. rewrite app_nil_r.
      destruct (x <? 0xA0)%N; rewrite <- app_assoc; reflexivity.
Qed.
Print Assumptions C134_exact_delay.

(** HERE IS pressed while 5 letters wait: the message, then the letters. *)
Definition crowd (i : N) : option (list setup_cmd) :=
  if (i =? 0)%N then
    Some [SAddMap [97; 98; 99; 0xA7; 100; 101]%N 0 1 6; SAddMap [97; 98; 99; 0xA7; 100; 101]%N 1 1 6;
          SAddMap [97; 98; 99; 0xA7; 100; 101]%N 2 1 6; SAddMap [97; 98; 99; 0xA7; 100; 101]%N 3 1 6; SHook 5 (HPrint [79; 75; 10]%N)]
  else None.
Definition mash : list (nat -> N) := hold 10 [(0, 0); (0, 1); (0, 2); (0, 3); (0, 4); (0, 5)].
Example C134_example : sound_firmware 1 crowd /\ same_size 1 6 crowd /\
  obs (fun s => (sent s, msg_queue s, key_queue s)) (c_run crowd mash) = Some ([], [79; 75; 13; 10], [97; 98; 99; 100; 101])%N /\
  mute (skipn 10 (work crowd 1 6 (mash ++ hold 6 []))) /\
  obs sent (c_run crowd (mash ++ hold 6 [])) = Some [79; 75; 13; 10; 97; 98]%N.
Proof.
  split; [split; [eexists; reflexivity|]|split; [|split; [|split]]].
  - intros i cs E. unfold crowd in E. destruct (N.eqb_spec i 0); inv E. split; [lia|]. apply (sound_b_ok 1 1 6); vm_compute; reflexivity.
  - intros i cs mi E Hm. unfold crowd in E. destruct (i =? 0)%N; inv E.
    do 4 (destruct mi as [|mi]; [eexists; vm_compute; reflexivity|]); lia.
  - vm_compute. reflexivity.
  - vm_compute. repeat constructor.
  - vm_compute. reflexivity.
Qed.
