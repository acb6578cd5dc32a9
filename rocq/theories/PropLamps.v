(** What lamps and outputs show under any keymaps (C109). *)
From Coq Require Import List NArith ZArith Arith Bool Lia.
From Coq Require Import ZifyBool ZifyNat ZifyN.
From Verif Require Import Base Lib Buffer BufferSpec BufferProofs Repeat Devices DevSpec DevProofs
     Modifiers Hook KeymapData Asdf KeySpec KeyRef Obs PropDebounce Custom CustomSpec CustomRef PropCustom PropEvents PropFlow
     PropExact PropBoard PropAllCalls.
Import ListNotations.
Local Open Scope outcome_scope.

(** ** Specification *)

(** The devices a setup function assigns, with their initial levels. *)
Definition plan (cs : list setup_cmd) : panel :=
  fold_left (fun n c => match c with SAssign v p f i => assigns v p f i n | _ => n end) cs (bare_panel 0).

(** The last value driven on a device since the keyboard was set up. *)
Definition drives (p : nat) (cur : option N) (e : event) : option N :=
  match e with EvArchInit => None | EvOut q x => if q =? p then Some x else cur | _ => cur end.
Definition driven (p : nat) (l : list event) : option N := fold_left (drives p) l None.

(** The presses that act on virtual output [v]. *)
Definition operates (x : N) (v : nat) : bool :=
  match decode x with
  | AVout k => k =? v
  | AVled k => 6 + k =? v
  | ACaps => v =? VCAPS_LED
  | AShift | AShiftlockOn | AShiftlockToggle => v =? VSHIFT_LED
  | _ => false
  end.
(** Modes, and how often each output was operated since the keyboard was set
    up, from the accepted transitions. *)
Definition tally (kbs : N -> option (list setup_cmd)) (s : setting * (nat -> nat)) (t : nat * nat * bool) : setting * (nat -> nat) :=
  let '(e, k) := s in
  let '(r, c, b) := t in
  let e' := after_event kbs e t in
  (e', fun v => if (e_kb e' =? e_kb e)%N then (if b && operates (code_in kbs e r c) v then S (k v) else k v) else 0).
Definition tallied (kbs : N -> option (list setup_cmd)) (R C : nat) (rds : list (nat -> N)) : setting * (nat -> nat) :=
  fold_left (tally kbs) (transitions R C [] rds) (at_start kbs, fun _ => 0).

(** The level an output ends at, from level 0 or 1. *)
Definition ends_at (f : vfun) (k : nat) (i : N) : N :=
  if k =? 0 then i
  else match f with
       | V_SET_HI => 1%N
       | V_SET_LO => 0%N
       | V_TOGGLE => if Nat.odd k then opposite i else i
       | _ => i
       end.

(** ** Proof *)
Lemma driven_app : forall p a b, driven p (a ++ b) = fold_left (drives p) b (driven p a).
Proof. intros. apply fold_left_app. Qed.
Lemma drives_others : forall p l cur, (forall q x, In (EvOut q x) l -> q <> p) -> ~ In EvArchInit l -> fold_left (drives p) l cur = cur.
Proof.
  intros p. induction l as [|e l IH]; intros cur H N; [reflexivity|]. cbn [fold_left].
  rewrite IH; [|intros q x Hx; apply (H q x); right; exact Hx|intros X; apply N; right; exact X].
  destruct e; cbn [drives]; try reflexivity.
  - exfalso. apply N. left. reflexivity.
  - destruct (Nat.eqb_spec d p) as [Q|Q]; [exfalso; exact (H d v (or_introl eq_refl) Q)|reflexivity].
Qed.

Lemma driven_put : forall v f n cur p, NoDup (map d_phys (n_devices n)) ->
  (forall d, In d (n_devices n) -> d_phys d = p ->
     fold_left (drives p) (snd (put v f n)) cur = if d_virt d =? v then Some (f (d_level d)) else cur).
Proof.
  intros v f n cur p ND. unfold put. cbn [snd]. revert cur. induction (n_devices n) as [|a ds IH]; intros cur d Hd HP; [contradiction|].
  cbn [map] in ND. inversion ND as [|? ? NI ND']. subst. cbn [flat_map]. rewrite fold_left_app.
  destruct Hd as [->|Hd].
  - rewrite drives_others.
    + destruct (d_virt d =? v); cbn [fold_left drives]; [rewrite Nat.eqb_refl|]; reflexivity.
    + intros q x Hx Q. apply in_flat_map in Hx. destruct Hx as [e [He Hx]]. destruct (d_virt e =? v); [|contradiction].
      destruct Hx as [Hx|[]]. inversion Hx. subst. apply NI. rewrite <- H0. apply in_map. exact He.
    + intros Hx. apply in_flat_map in Hx. destruct Hx as [e [He Hx]]. destruct (d_virt e =? v); [|contradiction]. destruct Hx as [Hx|[]]; discriminate.
  - rewrite (IH ND' _ d Hd eq_refl).
    destruct (d_virt d =? v); [reflexivity|].
    destruct (d_virt a =? v); cbn [fold_left drives]; [|reflexivity]. destruct (Nat.eqb_spec (d_phys a) (d_phys d)) as [Q|Q]; [|reflexivity].
    exfalso. apply NI. rewrite Q. apply in_map. exact Hd.
Qed.

(** A device [d] planned as [d0], operated [k] times with function [f]. *)
Record dev_ok (caps lock : bool) (k : nat) (f : vfun) (d0 d : device) (cur : option N) : Prop := {
  dk_phys : d_phys d = d_phys d0;
  dk_virt : d_virt d = d_virt d0;
  dk_cur : match cur with Some y => d_level d = y | None => d_level d = d_level d0 end;
  dk_caps : d_virt d0 = VCAPS_LED -> cur <> None -> d_level d = bitN caps;
  dk_shift : d_virt d0 = VSHIFT_LED -> cur <> None -> d_level d = bitN lock;
  dk_lamp : 10 <= d_virt d0 -> 0 < k -> cur <> None;
  dk_some : d_virt d0 < 10 -> (cur = None <-> k = 0 \/ f = V_NOFUNC);
  dk_level : d_virt d0 < 10 -> (d_level d0 <= 1)%N -> d_level d = ends_at f k (d_level d0) }.

Definition panel_ok (e : setting) (k : nat -> nat) (p0 n : panel) (l : list event) : Prop :=
  NoDup (map d_phys (n_devices n)) /\ (forall v, n_does n v = n_does p0 v) /\
  Forall2 (fun d0 d => dev_ok (e_caps e) (e_lock e) (k (d_virt d0)) (n_does p0 (d_virt d0)) d0 d (driven (d_phys d0) l))
    (n_devices p0) (n_devices n).

(** Putting output [v] to new levels: [n'] with the calls [evs]. *)
Definition put_to (v : nat) (f : N -> N) (n n' : panel) (evs : list event) : Prop :=
  n_devices n' = map (fun d => if d_virt d =? v then mkDevice (d_phys d) (d_virt d) (f (d_level d)) else d) (n_devices n) /\
  (forall w, n_does n' w = n_does n w) /\
  (NoDup (map d_phys (n_devices n)) -> forall d cur, In d (n_devices n) ->
     fold_left (drives (d_phys d)) evs cur = if d_virt d =? v then Some (f (d_level d)) else cur).
Lemma put_put : forall v f n, put_to v f n (fst (put v f n)) (snd (put v f n)).
Proof.
  intros v f n. split; [reflexivity|]. split; [reflexivity|]. intros ND d cur Hd. exact (driven_put v f n cur _ ND d Hd eq_refl).
Qed.
Lemma put_phys : forall v (f : N -> N) ds,
  map d_phys (map (fun d => if d_virt d =? v then mkDevice (d_phys d) (d_virt d) (f (d_level d)) else d) ds) = map d_phys ds.
Proof. intros v f ds. rewrite map_map. apply map_ext. intros d. destruct (d_virt d =? v); reflexivity. Qed.
Lemma put_same : forall v f n, map d_phys (n_devices (fst (put v f n))) = map d_phys (n_devices n).
Proof. intros. apply put_phys. Qed.
Lemma put_pulse : forall v e n, e = EvPulseShort \/ e = EvPulseLong ->
  put_to v (fun x => opposite (opposite x)) n (fst (pulse v e n)) (snd (pulse v e n)).
Proof.
  intros v e n HE. unfold pulse. pose proof (put_put v opposite n) as A. destruct (put v opposite n) as [n1 l1]. cbn [fst snd] in A.
  pose proof (put_put v opposite n1) as B. destruct (put v opposite n1) as [n2 l2]. cbn [fst snd] in *.
  destruct A as (A1&A2&A3). destruct B as (B1&B2&B3). split.
  - rewrite B1, A1, map_map. apply map_ext. intros d. destruct (d_virt d =? v) eqn:E; cbn [d_virt d_phys d_level]; rewrite ?E; reflexivity.
  - split; [intros w; rewrite B2; apply A2|]. intros ND d cur Hd. rewrite fold_left_app. cbn [fold_left].
    rewrite (A3 ND d cur Hd).
    replace (drives (d_phys d) (if d_virt d =? v then Some (opposite (d_level d)) else cur) e)
      with (if d_virt d =? v then Some (opposite (d_level d)) else cur) by (destruct HE as [-> | ->]; reflexivity).
    assert (ND1 : NoDup (map d_phys (n_devices n1))) by (rewrite A1, put_phys; exact ND).
    pose (d1 := if d_virt d =? v then mkDevice (d_phys d) (d_virt d) (opposite (d_level d)) else d).
    assert (H1 : In d1 (n_devices n1)) by (rewrite A1; exact (in_map _ _ _ Hd)).
    assert (P1 : d_phys d1 = d_phys d) by (unfold d1; destruct (d_virt d =? v); reflexivity).
    assert (V1 : d_virt d1 = d_virt d) by (unfold d1; destruct (d_virt d =? v); reflexivity).
    rewrite <- P1, (B3 ND1 d1 _ H1), V1. unfold d1. destruct (d_virt d =? v); reflexivity.
Qed.

Lemma panel_put : forall v f e e' k k' p0 n n' l evs, panel_ok e k p0 n l -> put_to v f n n' evs ->
  (forall d0 d cur, dev_ok (e_caps e) (e_lock e) (k (d_virt d0)) (n_does p0 (d_virt d0)) d0 d cur -> d_virt d0 = v ->
     dev_ok (e_caps e') (e_lock e') (k' v) (n_does p0 v) d0 (mkDevice (d_phys d) (d_virt d) (f (d_level d))) (Some (f (d_level d)))) ->
  (forall d0 d cur, dev_ok (e_caps e) (e_lock e) (k (d_virt d0)) (n_does p0 (d_virt d0)) d0 d cur -> d_virt d0 <> v ->
     dev_ok (e_caps e') (e_lock e') (k' (d_virt d0)) (n_does p0 (d_virt d0)) d0 d cur) ->
  panel_ok e' k' p0 n' (l ++ evs).
Proof.
  intros v f e e' k k' p0 n n' l evs (ND&DO&F) (Q1&Q2&Q3) H1 H2. specialize (Q3 ND).
  split; [rewrite Q1, put_phys; exact ND|]. split; [intros w; rewrite Q2; apply DO|]. rewrite Q1. clear Q1 Q2 DO ND.
  induction F as [|d0 d ds0 ds HD F IH]; [constructor|]. cbn [map]. constructor.
  - pose proof (Q3 d (driven (d_phys d0) l) (or_introl eq_refl)) as X. rewrite (dk_phys _ _ _ _ _ _ _ HD) in X.
    rewrite driven_app, X. pose proof (dk_virt _ _ _ _ _ _ _ HD) as V. destruct (Nat.eqb_spec (d_virt d) v) as [Q|Q].
    + rewrite (eq_trans (eq_sym V) Q). exact (H1 d0 d _ HD ltac:(congruence)).
    + exact (H2 d0 d _ HD ltac:(congruence)).
  - apply IH. intros a cur Ha. apply Q3. right. exact Ha.
Qed.

Lemma Forall2_impl : forall A B (P Q : A -> B -> Prop) xs ys, (forall x y, P x y -> Q x y) -> Forall2 P xs ys -> Forall2 Q xs ys.
Proof. intros A B P Q xs ys H F. induction F; constructor; auto. Qed.

(** Nothing driven: modes of the lamps and counts of the outputs stay. *)
Lemma panel_same : forall e e' k k' p0 n l evs, panel_ok e k p0 n l ->
  (forall cur p, fold_left (drives p) evs cur = cur) ->
  e_caps e' = e_caps e -> e_lock e' = e_lock e -> (forall v, k' v = k v) -> panel_ok e' k' p0 n (l ++ evs).
Proof.
  intros e e' k k' p0 n l evs (ND&DO&F) HE HC HL HK. split; [exact ND|]. split; [exact DO|].
  eapply Forall2_impl; [|exact F]. intros d0 d HD. rewrite driven_app, HE, HC, HL, HK. exact HD.
Qed.

(** A lamp following a mode. *)
Lemma panel_caps : forall b e e' k k' p0 n l, panel_ok e k p0 n l ->
  e_caps e' = b -> e_lock e' = e_lock e -> (forall v, v <> VCAPS_LED -> k' v = k v) ->
  panel_ok e' k' p0 (fst (lamp VCAPS_LED b n)) (l ++ snd (lamp VCAPS_LED b n)).
Proof.
  intros b e e' k k' p0 n l H HC HL HK. eapply panel_put; [exact H|apply put_put| |].
  - intros d0 d cur [A1 A2 A3 A4 A5 A6 A7 A8] Q. unfold VCAPS_LED in *.
    split; cbn [d_phys d_virt d_level]; auto; unfold VSHIFT_LED in *; try congruence; try lia.
    intros _ _. rewrite HC. reflexivity.
  - intros d0 d cur [A1 A2 A3 A4 A5 A6 A7 A8] Q. rewrite HL, (HK _ Q). split; auto. intros X. contradiction.
Qed.
Lemma panel_shift : forall b e e' k k' p0 n l, panel_ok e k p0 n l ->
  e_lock e' = b -> e_caps e' = e_caps e -> (forall v, v <> VSHIFT_LED -> k' v = k v) ->
  panel_ok e' k' p0 (fst (lamp VSHIFT_LED b n)) (l ++ snd (lamp VSHIFT_LED b n)).
Proof.
  intros b e e' k k' p0 n l H HC HL HK. eapply panel_put; [exact H|apply put_put| |].
  - intros d0 d cur [A1 A2 A3 A4 A5 A6 A7 A8] Q. unfold VSHIFT_LED in *.
    split; cbn [d_phys d_virt d_level]; auto; unfold VCAPS_LED in *; try congruence; try lia.
    intros _ _. rewrite HC. reflexivity.
  - intros d0 d cur [A1 A2 A3 A4 A5 A6 A7 A8] Q. rewrite HL, (HK _ Q). split; auto. intros X. contradiction.
Qed.

(** Operating output [v] once. *)
Lemma opp2 : forall i, (i <= 1)%N -> opposite (opposite i) = i.
Proof. intros i H. unfold opposite. destruct (N.eqb_spec i 0); [subst; reflexivity|]. cbn. lia. Qed.
Lemma panel_works : forall v e e' k k' p0 n l, panel_ok e k p0 n l -> v < 10 ->
  e_caps e' = e_caps e -> e_lock e' = e_lock e -> k' v = S (k v) -> (forall w, w <> v -> k' w = k w) ->
  panel_ok e' k' p0 (fst (works v (n_does n v) n)) (l ++ snd (works v (n_does n v) n)).
Proof.
  intros v e e' k k' p0 n l H HV HC HL HK HO. pose proof H as (ND&DO&F).
  assert (OTHER : forall d0 d cur, dev_ok (e_caps e) (e_lock e) (k (d_virt d0)) (n_does p0 (d_virt d0)) d0 d cur -> d_virt d0 <> v ->
     dev_ok (e_caps e') (e_lock e') (k' (d_virt d0)) (n_does p0 (d_virt d0)) d0 d cur).
  { intros d0 d cur X Q. rewrite HC, HL, (HO _ Q). exact X. }
  assert (STEP : forall g n' evs, put_to v g n n' evs -> n_does p0 v <> V_NOFUNC ->
    (forall i, (i <= 1)%N -> g (ends_at (n_does p0 v) (k v) i) = ends_at (n_does p0 v) (S (k v)) i) ->
    panel_ok e' k' p0 n' (l ++ evs)).
  { intros g n' evs PT NF HG. eapply panel_put; [exact H|exact PT| |exact OTHER].
    intros d0 d cur [A1 A2 A3 A4 A5 A6 A7 A8] Q. rewrite Q in *. rewrite HC, HL, HK.
    split; cbn [d_phys d_virt d_level]; auto; unfold VCAPS_LED, VSHIFT_LED; try lia; try congruence.
    - intros _. split; [discriminate|]. intros [X|X]; [discriminate|contradiction].
    - intros _ HI. rewrite (A8 HV HI). apply HG. exact HI. }
  rewrite DO. destruct (n_does p0 v) eqn:EF; cbn [works].
  - (* no function *) rewrite app_nil_r. cbn [fst snd].
    split; [exact ND|]. split; [exact DO|]. eapply Forall2_impl; [|exact F]. intros d0 d X.
    destruct (Nat.eq_dec (d_virt d0) v) as [Q|Q]; [|apply OTHER; auto].
    destruct X as [A1 A2 A3 A4 A5 A6 A7 A8]. rewrite Q in *. rewrite HC, HL, HK. split; auto; rewrite ?Q in *; try lia.
    + intros _. specialize (A7 HV). rewrite EF in *. tauto.
    + intros _ HI. rewrite (A8 HV HI), EF. unfold ends_at. destruct (k v =? 0); reflexivity.
  - apply (STEP _ _ _ (put_put v _ n)); [discriminate|]. intros i _. reflexivity.
  - apply (STEP _ _ _ (put_put v _ n)); [discriminate|]. intros i _. reflexivity.
  - apply (STEP _ _ _ (put_pulse v _ n (or_introl eq_refl))); [discriminate|]. intros i HI. unfold ends_at.
    destruct (k v =? 0); cbn [Nat.eqb]; apply opp2; exact HI.
  - apply (STEP _ _ _ (put_pulse v _ n (or_intror eq_refl))); [discriminate|]. intros i HI. unfold ends_at.
    destruct (k v =? 0); cbn [Nat.eqb]; apply opp2; exact HI.
  - apply (STEP _ _ _ (put_put v _ n)); [discriminate|]. intros i HI. unfold ends_at. cbn [Nat.eqb].
    rewrite Nat.odd_succ, <- Nat.negb_odd. destruct (Nat.eqb_spec (k v) 0) as [Q|Q]; [rewrite Q; reflexivity|].
    destruct (Nat.odd (k v)); cbn [negb]; [apply opp2; exact HI|reflexivity].
Qed.

(** Setting up. *)
Definition fresh (n : panel) (l : list event) : Prop := forall p, ~ In p (map d_phys (n_devices n)) -> driven p l = None.
Definition planned (c : setup_cmd) (n : panel) : panel := match c with SAssign v p f i => assigns v p f i n | _ => n end.

Lemma same_phys : forall e k p0 n l, panel_ok e k p0 n l -> map d_phys (n_devices n) = map d_phys (n_devices p0).
Proof.
  intros e k p0 n l (_&_&F). induction F as [|d0 d ds0 ds H F IH]; [reflexivity|]. cbn [map]. rewrite IH, (dk_phys _ _ _ _ _ _ _ H). reflexivity.
Qed.

Lemma panel_assign : forall v p f i e p0 n l, panel_ok e (fun _ => 0) p0 n l -> fresh n l ->
  panel_ok e (fun _ => 0) (assigns v p f i p0) (assigns v p f i n) l /\ fresh (assigns v p f i n) l.
Proof.
  intros v p f i e p0 n l H HF. pose proof (same_phys _ _ _ _ _ H) as SP. unfold assigns.
  assert (EX : forall ds, existsb (fun d => d_phys d =? p) ds = existsb (fun q => q =? p) (map d_phys ds)).
  { induction ds as [|d ds IH]; [reflexivity|]. cbn [map existsb]. rewrite IH. reflexivity. }
  rewrite !EX, SP. destruct ((1 <=? v) && (v <=? 11) && ((1 <=? p) && (p <=? 12)) && negb (existsb (fun q => q =? p) (map d_phys (n_devices p0)))) eqn:G;
    [|split; assumption].
  assert (NI : ~ In p (map d_phys (n_devices n))).
  { rewrite SP. intros X. apply andb_true_iff in G. destruct G as [_ G]. apply negb_true_iff in G. apply not_true_iff_false in G.
    apply G. apply existsb_exists. exists p. split; [exact X|apply Nat.eqb_refl]. }
  destruct H as (ND&DO&F). split.
  - split; [cbn [n_devices map d_phys]; constructor; assumption|]. split; [intros w; cbn [n_does]; destruct (w =? v); [reflexivity|apply DO]|].
    cbn [n_devices]. constructor.
    + cbn [d_phys d_virt]. rewrite (HF p NI). split; cbn [d_phys d_virt d_level]; auto; try congruence; try lia. intros _. tauto.
    + eapply Forall2_impl; [|exact F]. intros d0 d [A1 A2 A3 A4 A5 A6 A7 A8]. split; auto.
      * intros HV. specialize (A7 HV). tauto.
  - intros q Hq. cbn [n_devices map d_phys In] in Hq. apply HF. tauto.
Qed.

Lemma caps_flip : forall c cs, Nat.odd (caps_toggles (c :: cs)) =
  xorb (match c with SCapslock => true | _ => false end) (Nat.odd (caps_toggles cs)).
Proof.
  intros c cs. unfold caps_toggles. cbn [filter]. destruct c; try (symmetry; apply xorb_false_l).
  cbn [length]. rewrite Nat.odd_succ, <- Nat.negb_odd. symmetry. apply xorb_true_l.
Qed.

Lemma put_drives_none : forall v f n cur p, ~ In p (map d_phys (n_devices n)) -> fold_left (drives p) (snd (put v f n)) cur = cur.
Proof.
  intros v f n cur p NI. apply drives_others.
  - intros q x Hx Q. subst q. unfold put in Hx. cbn [snd] in Hx. apply in_flat_map in Hx. destruct Hx as [d [Hd Hx]].
    destruct (d_virt d =? v); [|contradiction]. destruct Hx as [Hx|[]]. inversion Hx. subst. apply NI. apply in_map. exact Hd.
  - intros Hx. unfold put in Hx. cbn [snd] in Hx. apply in_flat_map in Hx. destruct Hx as [d [Hd Hx]].
    destruct (d_virt d =? v); [|contradiction]. destruct Hx as [Hx|[]]. discriminate.
Qed.

Lemma panel_setup : forall cs e p0 n l, panel_ok e (fun _ => 0) p0 n l -> fresh n l ->
  forall e', e_caps e' = xorb (e_caps e) (Nat.odd (caps_toggles cs)) -> e_lock e' = e_lock e ->
  panel_ok e' (fun _ => 0) (fold_left (fun n c => planned c n) cs p0) (fst (sets_up cs (e_caps e) n)) (l ++ snd (sets_up cs (e_caps e) n)).
Proof.
  induction cs as [|c cs IH]; intros e p0 n l H HF e' HC HL.
  - cbn [sets_up fold_left fst snd]. apply panel_same with (e := e) (k := fun _ => 0); auto. rewrite HC. apply xorb_false_r.
  - rewrite caps_flip in HC.
    assert (ID : forall n2, n_devices n2 = n_devices n -> n_does n2 = n_does n ->
      panel_ok e (fun _ => 0) p0 n2 l /\ fresh n2 l).
    { intros n2 E1 E2. unfold panel_ok, fresh. rewrite E1, E2. split; assumption. }
    destruct c; cbn [sets_up fold_left planned].
    + rewrite xorb_false_l in HC. apply IH; auto.
    + rewrite xorb_false_l in HC. apply IH; auto.
    + rewrite xorb_false_l in HC. destruct (panel_assign vo po fn init e p0 n l H HF) as [X Y]. apply IH; auto.
    + rewrite xorb_false_l in HC. destruct (ID (mkPanel (n_devices n) (n_does n) (u8 ms)) eq_refl eq_refl) as [X Y]. apply IH; auto.
    + rewrite xorb_true_l in HC. pose (e1 := mkSetting (e_kb e) (e_shift e) (e_lock e) (negb (e_caps e)) (e_ctrl e)).
      pose proof (panel_caps (negb (e_caps e)) e e1 (fun _ => 0) (fun _ => 0) p0 n l H eq_refl eq_refl (fun _ _ => eq_refl)) as X.
      assert (Y : fresh (fst (lamp VCAPS_LED (negb (e_caps e)) n)) (l ++ snd (lamp VCAPS_LED (negb (e_caps e)) n))).
      { intros p Hp. unfold lamp in *. rewrite driven_app, put_drives_none.
        - apply HF. intros Q. apply Hp. rewrite put_same. exact Q.
        - intros Q. apply Hp. rewrite put_same. exact Q. }
      destruct (lamp VCAPS_LED (negb (e_caps e)) n) as [n1 l1]. cbn [fst snd] in X, Y.
      specialize (IH e1 p0 n1 (l ++ l1) X Y e'). cbn [e1 e_caps] in IH.
      destruct (sets_up cs (negb (e_caps e)) n1) as [n2 l2]. cbn [fst snd] in *. rewrite app_assoc. apply IH; [|exact HL].
      rewrite HC. destruct (e_caps e), (Nat.odd (caps_toggles cs)); reflexivity.
    + rewrite xorb_false_l in HC.
      assert (X : panel_ok e (fun _ => 0) p0 n (l ++ [EvStrobeNeg])) by (apply panel_same with (e := e) (k := fun _ => 0); auto).
      assert (Y : fresh n (l ++ [EvStrobeNeg])) by (intros p Hp; rewrite driven_app; exact (HF p Hp)).
      specialize (IH e p0 n _ X Y e' HC HL). destruct (sets_up cs (e_caps e) n) as [n1 l1]. cbn [fst snd] in *.
      rewrite <- app_assoc in IH. exact IH.
Qed.

Lemma panel_chosen : forall cs e e' l pause, e_caps e' = xorb (e_caps e) (Nat.odd (caps_toggles cs)) -> e_lock e' = e_lock e ->
  panel_ok e' (fun _ => 0) (plan cs) (fst (sets_up cs (e_caps e) (bare_panel pause)))
    (l ++ EvArchInit :: snd (sets_up cs (e_caps e) (bare_panel pause))).
Proof.
  intros cs e e' l pause HC HL. pose proof (panel_setup cs e (bare_panel 0) (bare_panel pause) (l ++ [EvArchInit])) as X.
  rewrite <- app_assoc in X. apply X; auto.
  - split; [constructor|]. split; [reflexivity|constructor].
  - intros p _. rewrite driven_app. reflexivity.
Qed.

(** ** Along a run *)
Definition shows_it (kbs : N -> option (list setup_cmd)) (s : setting * (nat -> nat)) (o : office) : Prop :=
  t_set (o_typist o) = fst s /\
  exists cs, kbs (e_kb (fst s)) = Some cs /\ panel_ok (fst s) (snd s) (plan cs) (o_panel o) (o_calls o).

Lemma choose_shows : forall kbs i e k k' n l, (exists cs, kbs (e_kb e) = Some cs /\ panel_ok e k (plan cs) n l) ->
  (forall v, k' v = if (e_kb (choose kbs i e) =? e_kb e)%N then k v else 0) ->
  exists cs, kbs (e_kb (choose kbs i e)) = Some cs /\
    panel_ok (choose kbs i e) k' (plan cs) (fst (selects kbs i e n)) (l ++ snd (selects kbs i e n)).
Proof.
  intros kbs i e k k' n l (cs&EK&P) HK. unfold selects, choose in *. destruct (N.eqb_spec i (e_kb e)) as [Q|Q].
  - exists cs. split; [exact EK|]. rewrite N.eqb_refl in HK. apply panel_same with (e := e) (k := k); auto.
  - destruct (kbs i) as [cs'|] eqn:EI.
    + cbn [e_kb] in *. exists cs'. split; [exact EI|].
      pose proof (panel_chosen cs' e (mkSetting i (e_shift e) (e_lock e) (xorb (e_caps e) (Nat.odd (caps_toggles cs'))) (e_ctrl e)) l (n_pause n) eq_refl eq_refl) as X.
      destruct (sets_up cs' (e_caps e) (bare_panel (n_pause n))) as [n1 l1]. cbn [fst snd] in *.
      rewrite <- (app_nil_r (l ++ EvArchInit :: l1)). eapply panel_same; [exact X|reflexivity|reflexivity|reflexivity|].
      intros v. rewrite HK. replace (i =? e_kb e)%N with false by (symmetry; apply N.eqb_neq; exact Q). reflexivity.
    + exists cs. split; [exact EK|]. rewrite N.eqb_refl in HK. apply panel_same with (e := e) (k := k); auto.
Qed.

Lemma set_moved : forall kbs t r c (b : bool), t_set (moved kbs t (r, c, if b then Press else Release)) = after_event kbs (t_set t) (r, c, b).
Proof.
  intros kbs t r c b. unfold moved, after_event. set (x := code_in kbs (t_set t) r c). destruct b.
  - unfold on_press, after_press. destruct (N.leb_spec x 0xA0).
    + destruct (low_nothing x H) as [-> | ->]; unfold types; cbv zeta; destruct (x =? t_last t)%N; reflexivity.
    + destruct (decode x); try reflexivity.
      * destruct ((66 <? t_left t)%N || negb (t_fast t || t_auto t)); reflexivity.
      * unfold prints. destruct (kbs (e_kb (t_set t))); reflexivity.
      * destruct (n <=? 10); [|reflexivity]. unfold prints. destruct (kbs (e_kb (t_set t))); reflexivity.
  - unfold on_release, after_release. destruct (N.leb_spec x 0xA0).
    + destruct (low_nothing x H) as [-> | ->]; destruct (x =? t_last t)%N; reflexivity.
    + destruct (decode x); reflexivity.
Qed.
Lemma set_held : forall kbs t r c, t_set (moved kbs t (r, c, Held)) = t_set t.
Proof.
  intros kbs t r c. unfold moved, on_held, types. cbv zeta.
  destruct ((code_in kbs (t_set t) r c =? t_last t)%N && (0 <? t_left t)%N); [|reflexivity].
  destruct (t_left t =? 1)%N; [|reflexivity]. cbn [beats t_last]. destruct (code_in kbs (t_set t) r c =? t_last t)%N; reflexivity.
Qed.
Lemma set_starts : forall kbs t, t_set (scan_starts kbs t) = t_set t.
Proof.
  intros kbs t. unfold scan_starts, prints, sends_one. cbv zeta.
  destruct (hd 0xA0%N (t_msgs t) =? 0xA0)%N; cbn [t_set]; destruct (kbs (e_kb (t_set t))); reflexivity.
Qed.

Lemma decode_out : forall x k, (decode x = AVout k -> k < 10) /\ (decode x = AVled k -> 6 + k < 10).
Proof.
  intros x k. unfold decode.
  repeat (match goal with |- context [if ?b then _ else _] => destruct b eqn:?; [try (split; discriminate)|] end; try (split; discriminate));
  split; intros X; try discriminate; inversion X; subst; lia.
Qed.

Lemma shows_transition : forall kbs s o r c b, shows_it kbs s o ->
  shows_it kbs (tally kbs s (r, c, b)) (moves kbs o (r, c, if b then Press else Release)).
Proof.
  intros kbs [e k] [t n l] r c b [TS (cs&EK&P)]. cbn [fst snd o_typist o_panel o_calls] in *.
  unfold moves. cbn [o_typist o_panel o_calls]. rewrite TS.
  assert (Q : forall k2, (forall v, k2 v = snd (tally kbs (e, k) (r, c, b)) v) ->
    exists cs, kbs (e_kb (after_event kbs e (r, c, b))) = Some cs /\
      panel_ok (after_event kbs e (r, c, b)) k2 (plan cs) (fst (acts kbs e n (r, c, if b then Press else Release)))
        (l ++ snd (acts kbs e n (r, c, if b then Press else Release)))).
  2:{ specialize (Q _ (fun v => eq_refl)). destruct (acts kbs e n (r, c, if b then Press else Release)) as [n1 l1]. cbn [fst snd] in Q.
      split; [cbn [o_typist]; rewrite set_moved, TS; reflexivity|]. exact Q. }
  intros k2 HK. cbn [tally snd] in HK. unfold acts, after_event in *. set (x := code_in kbs e r c) in *.
  assert (SAME : forall e', e_kb e' = e_kb e -> e_caps e' = e_caps e -> e_lock e' = e_lock e -> (forall v, k2 v = k v) ->
    forall ev, (forall cur p, fold_left (drives p) ev cur = cur) ->
    exists cs, kbs (e_kb e') = Some cs /\ panel_ok e' k2 (plan cs) n (l ++ ev)).
  { intros e' X1 X2 X3 X4 ev X5. exists cs. split; [rewrite X1; exact EK|]. apply panel_same with (e := e) (k := k); auto. }
  unfold operates in HK. destruct b.
  - unfold after_press in *. pose proof (decode_out x) as DX.
    destruct (decode x) eqn:ED; cbn [fst snd e_kb andb] in *; try rewrite N.eqb_refl in HK; try (apply SAME; auto; reflexivity).
    + exists cs. split; [exact EK|]. eapply panel_shift; [exact P|reflexivity|reflexivity|]. intros v NV. rewrite HK.
      destruct (Nat.eqb_spec v VSHIFT_LED); [contradiction|reflexivity].
    + exists cs. split; [exact EK|]. eapply panel_shift; [exact P|reflexivity|reflexivity|]. intros v NV. rewrite HK.
      destruct (Nat.eqb_spec v VSHIFT_LED); [contradiction|reflexivity].
    + exists cs. split; [exact EK|]. eapply panel_shift; [exact P|reflexivity|reflexivity|]. intros v NV. rewrite HK.
      destruct (Nat.eqb_spec v VSHIFT_LED); [contradiction|reflexivity].
    + exists cs. split; [exact EK|]. eapply panel_caps; [exact P|reflexivity|reflexivity|]. intros v NV. rewrite HK.
      destruct (Nat.eqb_spec v VCAPS_LED); [contradiction|reflexivity].
    + exact (SAME (mkSetting (e_kb e) (e_shift e) (e_lock e) (e_caps e) true) eq_refl eq_refl eq_refl HK [] (fun _ _ => eq_refl)).
    + apply choose_shows with (k := k); [exists cs; auto|]. exact HK.
    + exists cs. split; [exact EK|]. eapply panel_works; [exact P|apply (DX n0); reflexivity|reflexivity|reflexivity| |].
      * rewrite HK, Nat.eqb_refl. reflexivity.
      * intros w NW. rewrite HK. destruct (Nat.eqb_spec (6 + n0) w); [congruence|reflexivity].
    + exists cs. split; [exact EK|]. eapply panel_works; [exact P|apply (DX n0); reflexivity|reflexivity|reflexivity| |].
      * rewrite HK, Nat.eqb_refl. reflexivity.
      * intros w NW. rewrite HK. destruct (Nat.eqb_spec n0 w); [congruence|reflexivity].
  - unfold after_release in *.
    destruct (decode x) eqn:ED; cbn [fst snd e_kb andb] in *; try rewrite N.eqb_refl in HK; try (apply SAME; auto; reflexivity).
    + exists cs. split; [exact EK|]. eapply panel_shift; [exact P|reflexivity|reflexivity|]. intros v NV. apply HK.
    + exact (SAME (mkSetting (e_kb e) (e_shift e) (e_lock e) (e_caps e) false) eq_refl eq_refl eq_refl HK [] (fun _ _ => eq_refl)).
    + apply choose_shows with (k := k); [exists cs; auto|]. exact HK.
Qed.

Lemma shows_held : forall kbs s o r c, shows_it kbs s o -> shows_it kbs s (moves kbs o (r, c, Held)).
Proof.
  intros kbs s [t n l] r c [TS H]. unfold moves. cbn [acts o_typist o_panel o_calls].
  split; [cbn [o_typist]; rewrite set_held; exact TS|]. cbn [o_panel o_calls]. rewrite app_nil_r. exact H.
Qed.
Lemma shows_begins : forall kbs s o, shows_it kbs s o -> shows_it kbs s (begins kbs o).
Proof.
  intros kbs s [t n l] [TS (cs&EK&P)]. unfold begins. cbn [o_typist o_panel o_calls] in *.
  split; [cbn [o_typist]; rewrite set_starts; exact TS|]. exists cs. split; [exact EK|]. cbn [o_panel o_calls].
  eapply panel_same; [exact P| |reflexivity|reflexivity|reflexivity]. intros cur p. apply drives_others.
  - intros q x Hx. exfalso. unfold waits, leaves in Hx. cbv zeta in Hx. apply in_app_or in Hx.
    destruct Hx as [Hx|Hx]; (destruct (hd 0xA0%N (t_msgs t) =? 0xA0)%N); try contradiction;
      repeat match type of Hx with context [if ?b then _ else _] => destruct b end; try contradiction; destruct Hx as [Hx|[]]; discriminate.
  - intros Hx. unfold waits, leaves in Hx. cbv zeta in Hx. apply in_app_or in Hx.
    destruct Hx as [Hx|Hx]; (destruct (hd 0xA0%N (t_msgs t) =? 0xA0)%N); try contradiction;
      repeat match type of Hx with context [if ?b then _ else _] => destruct b end; try contradiction; destruct Hx as [Hx|[]]; discriminate.
Qed.

Lemma shows_key : forall kbs pre rd r c s o, shows_it kbs s o ->
  shows_it kbs (fold_left (tally kbs) (key_event pre rd r c) s) (fold_left (moves kbs) (key_moves pre rd r c) o).
Proof.
  intros kbs pre rd r c s o H. unfold key_event, key_moves. cbv zeta.
  destruct (accepted_after pre r c), (accepted_after (pre ++ [rd]) r c); cbn [Bool.eqb fold_left]; auto.
  - destruct (reading rd r c); cbn [fold_left]; [apply shows_held|]; exact H.
  - exact (shows_transition kbs s o r c false H).
  - exact (shows_transition kbs s o r c true H).
Qed.
Lemma shows_flat : forall kbs A (f : A -> list (nat * nat * bool)) (g : A -> list (nat * nat * move)) xs,
  (forall x s o, shows_it kbs s o -> shows_it kbs (fold_left (tally kbs) (f x) s) (fold_left (moves kbs) (g x) o)) ->
  forall s o, shows_it kbs s o -> shows_it kbs (fold_left (tally kbs) (flat_map f xs) s) (fold_left (moves kbs) (flat_map g xs) o).
Proof.
  intros kbs A f g xs H. induction xs as [|x xs IH]; intros s o HS; [exact HS|]. cbn [flat_map]. rewrite !fold_left_app. apply IH, H, HS.
Qed.
Lemma shows_run : forall kbs R C rds pre s o, shows_it kbs s o ->
  shows_it kbs (fold_left (tally kbs) (transitions R C pre rds) s) (works_on kbs R C pre rds o).
Proof.
  intros kbs R C. induction rds as [|rd rds IH]; intros pre s o H; [exact H|]. cbn [transitions works_on]. rewrite fold_left_app. apply IH.
  unfold scan_events, scan_moves. apply shows_flat; [|apply shows_begins; exact H]. intros r s1 o1 H1.
  apply shows_flat; [|exact H1]. intros c s2 o2 H2. apply shows_key. exact H2.
Qed.
Lemma shows_opens : forall kbs cs, kbs 0%N = Some cs -> shows_it kbs (at_start kbs, fun _ => 0) (opens kbs).
Proof.
  intros kbs cs EK. unfold opens. rewrite EK.
  pose proof (panel_chosen cs (mkSetting 0 false false false false) (at_start kbs) [] 0) as X. cbn [app e_caps] in X.
  destruct (sets_up cs false (bare_panel 0)) as [n l]. cbn [fst snd] in X.
  split; [reflexivity|]. exists cs. split; [exact EK|]. cbn [fst snd o_panel o_calls]. apply X; [|reflexivity].
  unfold at_start. rewrite EK. cbn [e_caps]. symmetry. apply xorb_false_l.
Qed.

Lemma tallied_set : forall kbs ts e k, fst (fold_left (tally kbs) ts (e, k)) = fold_left (after_event kbs) ts e.
Proof.
  intros kbs. induction ts as [|[[r c] b] ts IH]; intros e k; [reflexivity|]. cbn [fold_left tally]. apply IH.
Qed.

(** ** C109 *)
(** Modes follow the tally; each device of the selected keyboard was last driven
    to the level of its mode (lamps) or of its count of presses (outputs). *)
Theorem C109_lamps : forall R C kbs rds s, sound_firmware R kbs -> same_size R C kbs -> c_run kbs rds = Ok s ->
  let e := fst (tallied kbs R C rds) in
  let k := snd (tallied kbs R C rds) in
  setting_is e s /\
  exists cs, kbs (k_cur s) = Some cs /\ forall d, In d (n_devices (plan cs)) ->
    let y := driven (d_phys d) (events s) in
    (d_virt d = VCAPS_LED -> (y = None /\ k VCAPS_LED = 0) \/ y = Some (bitN (caps_on s))) /\
    (d_virt d = VSHIFT_LED -> (y = None /\ k VSHIFT_LED = 0) \/ y = Some (bitN (e_lock e))) /\
    (d_virt d < 10 ->
       (k (d_virt d) = 0 \/ n_does (plan cs) (d_virt d) = V_NOFUNC -> y = None) /\
       (0 < k (d_virt d) -> n_does (plan cs) (d_virt d) <> V_NOFUNC -> (d_level d <= 1)%N ->
          y = Some (ends_at (n_does (plan cs) (d_virt d)) (k (d_virt d)) (d_level d)))).
Proof.
  intros R C kbs rds s HS HZ ES e k. destruct (proj1 HS) as [cs0 E0].
  assert (SE : setting_is e s) by (unfold e, tallied; rewrite tallied_set; exact (C100_setting R C kbs rds s HS HZ ES)).
  split; [exact SE|]. destruct SE as (KC&_&CA&_). rewrite KC, CA.
  pose proof (shows_run kbs R C rds [] _ _ (shows_opens kbs cs0 E0)) as [_ (cs&EK&P)].
  fold (tallied kbs R C rds) in EK, P. fold e in EK, P. fold k in P. fold (calls_of_run kbs R C rds) in P.
  rewrite <- (C108_all_calls R C kbs rds s HS HZ ES) in P. exists cs. split; [exact EK|].
  destruct P as (_&_&F). intros d Hd. cbv zeta.
  assert (X : exists d', dev_ok (e_caps e) (e_lock e) (k (d_virt d)) (n_does (plan cs) (d_virt d)) d d' (driven (d_phys d) (events s))).
  { clear -F Hd. induction F as [|a b l l' H F IH]; [contradiction|]. destruct Hd as [->|Hd]; [eexists; exact H|auto]. }
  destruct X as [d' [A1 A2 A3 A4 A5 A6 A7 A8]]. split; [|split].
  - intros V. specialize (A4 V). specialize (A6 ltac:(rewrite V; unfold VCAPS_LED; lia)). rewrite V in A6.
    destruct (driven (d_phys d) (events s)) as [y|].
    + right. rewrite <- A3, A4 by discriminate. reflexivity.
    + left. split; [reflexivity|]. destruct (k VCAPS_LED); [reflexivity|]. exfalso. apply A6; [lia|reflexivity].
  - intros V. specialize (A5 V). specialize (A6 ltac:(rewrite V; unfold VSHIFT_LED; lia)). rewrite V in A6.
    destruct (driven (d_phys d) (events s)) as [y|].
    + right. rewrite <- A3, A5 by discriminate. reflexivity.
    + left. split; [reflexivity|]. destruct (k VSHIFT_LED); [reflexivity|]. exfalso. apply A6; [lia|reflexivity].
  - intros V. specialize (A7 V). split; [apply A7|]. intros K NF LV. rewrite <- (A8 V LV).
    destruct (driven (d_phys d) (events s)) as [y|]; [congruence|]. exfalso. destruct (proj1 A7 eq_refl) as [Q|Q]; [lia|contradiction].
Qed.
Print Assumptions C109_lamps.

(** LED 1 toggled three times and OUT1 pulsed once on keyboard 0, CAPS LOCK on;
    then keyboard 1, whose setup turns CAPS LOCK off again. *)
Definition part : list (nat -> N) := tap 1 ++ tap 2 ++ tap 0 ++ tap 3 ++ tap 4 ++ tap 2 ++ tap 2.
Example C109_example :
  (let k := snd (tallied lamps 1 6 part) in (k VCAPS_LED, k VLED1, k VOUT1) = (1, 3, 1)) /\
  obs (fun s => map (fun d => (d_phys d, driven (d_phys d) (events s)))
         (match lamps (k_cur s) with Some cs => n_devices (plan cs) | None => [] end)) (c_run lamps part) =
    Some [(OUT1, Some 1%N); (LED1, Some 0%N); (LED3, Some 1%N)] /\
  (let k := snd (tallied lamps 1 6 tour) in (k VCAPS_LED, k VLED1, k VOUT1) = (0, 0, 0)) /\
  obs (fun s => (k_cur s, caps_on s, driven LED1 (events s))) (c_run lamps tour) = Some (1%N, false, Some 0%N).
Proof. repeat split; vm_compute; reflexivity. Qed.
