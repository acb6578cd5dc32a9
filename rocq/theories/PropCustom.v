(** Properties of the firmware built from any list of keymaps: freedom from
    undefined behaviour (C98) and debouncing (C99). *)
From Coq Require Import List NArith ZArith Arith Bool Lia.
From Coq Require Import ZifyBool ZifyNat ZifyN.
From Verif Require Import Base Lib Buffer BufferSpec BufferProofs Repeat Devices DevSpec DevProofs
     Modifiers Hook KeymapData Asdf KeySpec KeyRef Obs PropDebounce Custom CustomSpec CustomRef.
Import ListNotations.
Local Open Scope outcome_scope.

(** ** Specification *)

(** The table a setup function registers for modifier map [mi]: the last call
    with acceptable dimensions wins. *)
Definition table_of (cs : list setup_cmd) (mi : nat) : option (list N * nat * nat) :=
  fold_left (fun t c =>
    match c with
    | SAddMap m i r k => if (i =? mi) && (r <=? 16) && (k <=? 8) then Some (m, r, k) else t
    | _ => t
    end) cs None.

(** The codes that select another keyboard. *)
Definition selects (x : N) : Prop := (0xA8 <= x <= 0xAB)%N.

(** Message [m] shows as [l]: a format in which every '%' is doubled. *)
Inductive shows : list N -> list N -> Prop :=
| shows_nil : shows [] []
| shows_char : forall c m l, c <> 37%N -> shows m l -> shows (c :: m) (c :: l)
| shows_percent : forall m l, shows m l -> shows (37 :: 37 :: m)%N (37 :: l)%N.

(** A keyboard of at least [R0] rows: four tables of one size, each as long as
    its size says, with selection codes in the first [R0] rows only; the row
    reader and the sender are left alone, and the other hooks print messages
    that show as something, or do nothing. *)
Definition sound_hook (id : nat) (f : hookfn) : Prop :=
  (id = 2 -> f = HReadRow) /\ (id = 3 -> f = HSend) /\
  (4 <= id -> f = HNull \/ exists m l, f = HPrint m /\ shows m l).
Definition sound_keyboard (R0 : nat) (cs : list setup_cmd) : Prop :=
  (exists R C, R0 <= R /\ forall mi, mi < 4 -> exists m, table_of cs mi = Some (m, R, C) /\ R * C <= length m /\
     forall r c, R0 <= r < R -> c < C -> ~ selects (nth (r * C + c) m 0%N)) /\
  (forall id f, In (SHook id f) cs -> sound_hook id f).

(** A firmware of at most four keyboards, with indices 0 to 3, all sound. *)
Definition sound_firmware (R0 : nat) (kbs : N -> option (list setup_cmd)) : Prop :=
  (exists cs, kbs 0%N = Some cs) /\
  forall i cs, kbs i = Some cs -> (i < 4)%N /\ sound_keyboard R0 cs.

Lemma shows_format : forall m l, shows m l <-> format m = Some l.
Proof.
  intros m l. split.
  - intros H. induction H as [|c m l NE H IH|m l H IH]; cbn [format]; auto.
    + destruct (N.eqb_spec c 37); [contradiction|]. rewrite IH. reflexivity.
    + rewrite IH. reflexivity.
  - revert l. remember (length m) as n eqn:E. revert m E. induction n as [n IH] using lt_wf_ind. intros m E l H.
    destruct m as [|c m]; cbn [format length] in *; [inv H; constructor|]. destruct (N.eqb_spec c 37).
    + destruct m as [|d m]; [discriminate|]. destruct (N.eqb_spec d 37); [|discriminate]. subst. cbn [length] in *.
      destruct (format m) as [l'|] eqn:F; inv H. apply shows_percent. refine (IH (length m) _ m eq_refl l' F). lia.
    + destruct (format m) as [l'|] eqn:F; inv H. constructor; auto. refine (IH (length m) _ m eq_refl l' F). lia.
Qed.

(** ** What a setup function registers *)
Definition tm_step (t : list kmap) (c : setup_cmd) : list kmap :=
  match c with
  | SAddMap m i r k => if (i <? 4) && (r <=? 16) && (k <=? 8) then upd t i (mkKmap (Some m) r k) else t
  | _ => t
  end.
Definition th_step (h : hooks) (c : setup_cmd) : hooks :=
  match c with SHook id f => if (0 <? id) && (id <? 16) then upd h id f else h | _ => h end.
Definition tm (cs : list setup_cmd) : list kmap := fold_left tm_step cs (repeat no_map 4).
Definition th (cs : list setup_cmd) : hooks := fold_left th_step cs hook_init.

Lemma gact_tabs : forall f v g, g_maps (gact f v g) = g_maps g /\ g_hook (gact f v g) = g_hook g /\ g_cur (gact f v g) = g_cur g.
Proof. intros. unfold gact. destruct (spec_action _ _ _). auto. Qed.
Lemma gshift_tabs : forall x g, g_maps (gset_shift x g) = g_maps g /\ g_hook (gset_shift x g) = g_hook g /\ g_cur (gset_shift x g) = g_cur g.
Proof. intros. unfold gset_shift, gact. destruct (spec_action _ _ _). auto. Qed.
Lemma gcaps_tabs : forall g, g_maps (gtoggle_caps g) = g_maps g /\ g_hook (gtoggle_caps g) = g_hook g /\ g_cur (gtoggle_caps g) = g_cur g.
Proof. intros. unfold gtoggle_caps, gact. destruct (spec_action _ _ _). auto. Qed.

Lemma gsetup_tabs : forall cs g, g_maps (gsetup cs g) = fold_left tm_step cs (g_maps g) /\
  g_hook (gsetup cs g) = fold_left th_step cs (g_hook g) /\ g_cur (gsetup cs g) = g_cur g.
Proof.
  induction cs as [|c cs IH]; intros g; [auto|].
  change (gsetup (c :: cs) g) with (gsetup cs (gsetup_step c g)). destruct (IH (gsetup_step c g)) as (A&B&C).
  rewrite A, B, C. cbn [fold_left].
  destruct c; cbn [gsetup_step tm_step th_step]; try (auto; fail).
  - destruct ((mi <? 4) && (rows <=? 16) && (cols <=? 8)); auto.
  - destruct ((0 <? id) && (id <? 16)); auto.
  - destruct (gcaps_tabs g) as (->&->&->). auto.
Qed.

Lemma gswitch_tabs : forall kbs i g cs, kbs i = Some cs ->
  g_maps (gswitch kbs i g) = tm cs /\ g_hook (gswitch kbs i g) = th cs /\ g_cur (gswitch kbs i g) = i.
Proof.
  intros kbs i g cs E. unfold gswitch. rewrite E. destruct (gsetup_tabs cs (gclear i g)) as (A&B&C).
  rewrite A, B, C. auto.
Qed.

Definition entry (t : option (list N * nat * nat)) : kmap :=
  match t with Some (m, r, k) => mkKmap (Some m) r k | None => no_map end.

Lemma tm_table : forall cs mi, mi < 4 -> nth_error (tm cs) mi = Some (entry (table_of cs mi)) /\ length (tm cs) = 4.
Proof.
  intros cs mi Hm. unfold tm, table_of.
  assert (X : forall cs t o, length t = 4 -> nth_error t mi = Some (entry o) ->
    nth_error (fold_left tm_step cs t) mi = Some (entry (fold_left (fun t c =>
    match c with
    | SAddMap m i r k => if (i =? mi) && (r <=? 16) && (k <=? 8) then Some (m, r, k) else t
    | _ => t
    end) cs o)) /\ length (fold_left tm_step cs t) = 4).
  { induction cs0 as [|c cs0 IH]; intros t o HL HE; cbn [fold_left]; [auto|].
    destruct c; cbn [tm_step]; try (apply IH; auto; fail).
    destruct (Nat.eqb_spec mi0 mi).
    - subst mi0. replace (mi <? 4) with true by lia. cbn [andb].
      destruct ((rows <=? 16) && (cols <=? 8)); [|apply IH; auto].
      apply IH; [rewrite upd_length; auto|]. rewrite nth_error_upd, Nat.eqb_refl.
      replace (mi <? length t) with true by lia. reflexivity.
    - cbn [andb]. destruct ((mi0 <? 4) && (rows <=? 16) && (cols <=? 8)); [|apply IH; auto].
      apply IH; [rewrite upd_length; auto|]. rewrite nth_error_upd.
      replace (mi0 =? mi) with false by lia. auto. }
  apply X; auto. do 4 (destruct mi as [|mi]; [reflexivity|]). lia.
Qed.

Lemma table_small : forall cs mi m r k, table_of cs mi = Some (m, r, k) -> r <= 16 /\ k <= 8.
Proof.
  intros cs mi. unfold table_of.
  assert (X : forall cs o, (forall m r k, o = Some (m, r, k) -> r <= 16 /\ k <= 8) ->
    forall m r k, fold_left (fun t c =>
    match c with
    | SAddMap m i r k => if (i =? mi) && (r <=? 16) && (k <=? 8) then Some (m, r, k) else t
    | _ => t
    end) cs o = Some (m, r, k) -> r <= 16 /\ k <= 8).
  { induction cs0 as [|c cs0 IH]; intros o HO m r k; cbn [fold_left]; [apply HO|].
    apply IH. destruct c; auto. destruct ((mi0 =? mi) && (rows <=? 16) && (cols <=? 8)) eqn:E; auto.
    intros m1 r1 k1 E1. inv E1. lia. }
  intros m r k. apply X. discriminate.
Qed.

Lemma th_sound : forall cs, (forall id f, In (SHook id f) cs -> sound_hook id f) ->
  length (th cs) = 16 /\ forall id, 2 <= id < 16 -> sound_hook id (nth id (th cs) HUnset).
Proof.
  intros cs. unfold th.
  assert (X : forall cs h, length h = 16 -> (forall id, 2 <= id < 16 -> sound_hook id (nth id h HUnset)) ->
    (forall id f, In (SHook id f) cs -> sound_hook id f) ->
    length (fold_left th_step cs h) = 16 /\
    forall id, 2 <= id < 16 -> sound_hook id (nth id (fold_left th_step cs h) HUnset)).
  { induction cs0 as [|c cs0 IH]; intros h HL HH HC; cbn [fold_left]; [auto|].
    apply IH; [| |intros; apply HC; right; auto].
    - destruct c; auto. cbn [th_step]. destruct ((0 <? id) && (id <? 16)); auto. rewrite upd_length; auto.
    - intros id Hid. destruct c; auto. cbn [th_step]. destruct ((0 <? id0) && (id0 <? 16)) eqn:E; auto.
      destruct (Nat.eq_dec id0 id).
      + subst id0. assert (EN : nth_error (upd h id f) id = Some f).
        { rewrite nth_error_upd, Nat.eqb_refl. replace (id <? length h) with true by lia. reflexivity. }
        apply nth_error_nth with (d := HUnset) in EN. rewrite EN. apply HC. left. reflexivity.
      + assert (EN : nth_error (upd h id0 f) id = Some (nth id h HUnset)).
        { rewrite nth_error_upd. replace (id0 =? id) with false by lia. cbn [andb].
          apply nth_error_nth'. lia. }
        apply nth_error_nth with (d := HUnset) in EN. rewrite EN. auto. }
  intros HC. apply X; auto.
  intros id Hid. unfold sound_hook.
  assert (id = 2 \/ id = 3 \/ 4 <= id) as [E|[E|E]] by lia; [subst; cbn; intuition lia..|].
  split; [lia|]. split; [lia|]. intros _. left.
  do 16 (destruct id as [|id]; [cbn; try lia; reflexivity|]). lia.
Qed.

(** ** The tables in force are those of the selected keyboard *)
Section Sound.
Variable R0 : nat.
Variable kbs : N -> option (list setup_cmd).

Definition Tab (g : gkb) : Prop :=
  exists cs, kbs (g_cur g) = Some cs /\ g_maps g = tm cs /\ g_hook g = th cs.

Lemma Tab_eq : forall g g', Tab g -> g_maps g' = g_maps g /\ g_hook g' = g_hook g /\ g_cur g' = g_cur g -> Tab g'.
Proof. intros g g' [cs (A&B&C)] (D&E&F). exists cs. rewrite D, E, F. auto. Qed.

Lemma Tab_switch : forall i g, Tab g -> Tab (gswitch kbs i g).
Proof.
  intros i g H. destruct (kbs i) as [cs|] eqn:E.
  - destruct (gswitch_tabs kbs i g cs E) as (A&B&C). exists cs. rewrite A, B, C. auto.
  - unfold gswitch. rewrite E. auto.
Qed.
Lemma Tab_select : forall i g, Tab g -> Tab (gselect kbs i g).
Proof. intros i g H. unfold gselect. destruct (i =? g_cur g)%N; auto. apply Tab_switch; auto. Qed.

Lemma ghook_tabs : forall id g g', ghook id g = Ok g' ->
  g_maps g' = g_maps g /\ g_hook g' = g_hook g /\ g_cur g' = g_cur g.
Proof. intros id g g' H. unfold ghook in H. destruct (nth id (g_hook g) HUnset) as [| | | | |m]; try destruct (format m); inv H; auto. Qed.

Lemma decode_selects : forall x n, decode x = AMapsel n -> selects x.
Proof.
  intros x n. unfold decode, selects.
  repeat match goal with |- context [if ?b then _ else _] => destruct b eqn:? end;
    intros E; inv E; lia.
Qed.

(** A press: the tables stay those of the selected keyboard, and stay the same
    unless the code selects. *)
Lemma on_tabs : forall x g g', gaction_on kbs x g = Ok g' -> Tab g ->
  Tab g' /\ (~ selects x -> g_maps g' = g_maps g /\ g_hook g' = g_hook g /\ g_cur g' = g_cur g).
Proof.
  intros x g g' H HT. unfold gaction_on in H. destruct (decode x) eqn:D;
    try (match type of H with ghook _ _ = _ =>
           apply ghook_tabs in H; split; [apply (Tab_eq g); auto|auto] end; fail);
    try (inv H; split; [|auto]; apply (Tab_eq g); auto; fail).
  - inv H. split; [apply (Tab_eq g); auto|intros _]; apply gshift_tabs.
  - inv H. split; [apply (Tab_eq g); auto|intros _]; apply gshift_tabs.
  - inv H. split; [apply (Tab_eq g); auto|intros _]; apply gshift_tabs.
  - inv H. split; [apply (Tab_eq g); auto|intros _]; apply gcaps_tabs.
  - inv H. split; [apply Tab_select; auto|]. intros NS. apply decode_selects in D. contradiction.
  - inv H. split; [apply (Tab_eq g); auto|intros _]; apply gact_tabs.
  - inv H. split; [apply (Tab_eq g); auto|intros _]; apply gact_tabs.
  - destruct (n <=? 10).
    + apply ghook_tabs in H. split; [apply (Tab_eq g); auto|auto].
    + inv H. split; auto.
  - inv H. split; auto.
Qed.
Lemma off_tabs : forall x g, Tab g ->
  Tab (gaction_off kbs x g) /\ (~ selects x -> g_maps (gaction_off kbs x g) = g_maps g /\
    g_hook (gaction_off kbs x g) = g_hook g /\ g_cur (gaction_off kbs x g) = g_cur g).
Proof.
  intros x g HT. unfold gaction_off. destruct (decode x) eqn:D;
    try (split; [|auto]; apply (Tab_eq g); auto; fail).
  - split; [apply (Tab_eq g); auto|intros _]; apply gshift_tabs.
  - split; [apply Tab_select; auto|]. intros NS. apply decode_selects in D. contradiction.
Qed.
Lemma press_tabs : forall x g g', gpress kbs x g = Ok g' -> Tab g ->
  Tab g' /\ (~ selects x -> g_maps g' = g_maps g /\ g_hook g' = g_hook g /\ g_cur g' = g_cur g).
Proof.
  intros x g g' H HT. unfold gpress in H. destruct (0xA0 <? x)%N; [apply on_tabs; auto|].
  destruct (g_last g =? x)%N; inv H; (split; [apply (Tab_eq g); auto|auto]).
Qed.
Lemma release_tabs : forall x g, Tab g ->
  Tab (grelease kbs x g) /\ (~ selects x -> g_maps (grelease kbs x g) = g_maps g /\
    g_hook (grelease kbs x g) = g_hook g /\ g_cur (grelease kbs x g) = g_cur g).
Proof.
  intros x g HT. unfold grelease. destruct (0xA0 <? x)%N; [apply off_tabs; auto|].
  destruct (g_last g =? x)%N; (split; [apply (Tab_eq g); auto|auto]).
Qed.
Lemma held_tabs : forall x g g', gheld kbs x g = Ok g' -> Tab g ->
  Tab g' /\ (~ selects x -> g_maps g' = g_maps g /\ g_hook g' = g_hook g /\ g_cur g' = g_cur g).
Proof.
  intros x g g' H HT. unfold gheld in H. destruct (x =? g_last g)%N; [|inv H; auto].
  destruct (repeat_tick (g_rep g)) as [[] q]; [|inv H; split; [apply (Tab_eq g); auto|auto]].
  apply press_tabs in H; auto.
Qed.

Hypothesis sound : sound_firmware R0 kbs.

(** ** Every step succeeds *)
Lemma tab_hook : forall g id, Tab g -> 4 <= id < 16 -> exists g', ghook id g = Ok g'.
Proof.
  intros g id [cs (A&B&C)] Hid. destruct (proj2 sound _ _ A) as [_ [_ HK]].
  destruct (th_sound cs HK) as [_ HH]. destruct (HH id ltac:(lia)) as (_&_&X).
  unfold ghook. rewrite C. destruct (X ltac:(lia)) as [E|(m&l&E&F)]; rewrite E; eauto. apply shows_format in F. rewrite F. eauto.
Qed.

Lemma on_ok : forall x g, Tab g -> exists g', gaction_on kbs x g = Ok g'.
Proof.
  intros x g H. unfold gaction_on. destruct (decode x) eqn:D; eauto.
  - apply tab_hook; auto. lia.
  - apply tab_hook; auto. lia.
  - destruct (Nat.leb_spec n 10); eauto. apply tab_hook; auto. apply decode_fn in D. lia.
Qed.
Lemma press_ok : forall x g, Tab g -> exists g', gpress kbs x g = Ok g'.
Proof. intros x g H. unfold gpress. destruct (0xA0 <? x)%N; [apply on_ok; auto|eauto]. Qed.
Lemma held_ok : forall x g, Tab g -> exists g', gheld kbs x g = Ok g'.
Proof.
  intros x g H. unfold gheld. destruct (x =? g_last g)%N; [|eauto].
  destruct (repeat_tick (g_rep g)) as [[] q]; [|eauto]. apply press_ok. apply (Tab_eq g); auto.
Qed.

(** The size of the tables in force, and the code of a key. *)
Lemma tab_code : forall g, Tab g -> exists R C, R0 <= R /\ g_rows g = R /\ g_cols g = C /\ R <= 16 /\ C <= 8 /\
  forall r c, r < R -> c < C -> exists x, gcode r c g = Ok x /\ (R0 <= r -> ~ selects x).
Proof.
  intros g [cs (A&B&_)]. destruct (proj2 sound _ _ A) as [HI [[R [C [HR HM]]] _]].
  assert (HN : forall mi, mi < 4 -> exists m, nth_error (g_maps g) mi = Some (mkKmap (Some m) R C) /\ R * C <= length m /\
     forall r c, R0 <= r < R -> c < C -> ~ selects (nth (r * C + c) m 0%N)).
  { intros mi Hm. destruct (HM mi Hm) as [m (E&L&NS)]. exists m. rewrite B, (proj1 (tm_table cs mi Hm)), E. auto. }
  pose proof (map_now_lt (g_mod g)) as HL.
  destruct (HN _ HL) as [m (E1&L1&N1)]. pose proof (nth_error_nth _ _ no_map E1) as E2.
  destruct (HN (N.to_nat (g_cur g)) ltac:(lia)) as [m0 (E3&L3&N3)].
  destruct (HM _ HL) as [m' (E4&_&_)]. destruct (table_small _ _ _ _ _ E4) as [SR SC].
  exists R, C. unfold g_rows, g_cols. rewrite E2. cbn [km_rows km_cols].
  split; [exact HR|]. split; [reflexivity|]. split; [reflexivity|]. split; [exact SR|]. split; [exact SC|].
  intros r c Hr Hc. exists (nth (r * C + c) m 0%N). split.
  - unfold gcode. rewrite E3, E2. cbn [km_cols km_rows km_matrix].
    replace (C =? 0) with false by lia. replace (R =? 0) with false by lia. cbn [orb].
    apply lget_ok. apply nth_error_nth'. nia.
  - intros HR0. apply N1; auto.
Qed.

Lemma tab_boot : Tab (gboot kbs).
Proof.
  destruct (proj1 sound) as [cs E]. unfold gboot. destruct (gswitch_tabs kbs 0 gzero cs E) as (A&B&C).
  exists cs. rewrite A, B, C. auto.
Qed.

(** One key, in a row the tables in force have.  It still has that row
    afterwards. *)
Lemma key_ok : forall rd r c g, Tab g -> r < g_rows g -> c < g_cols g ->
  exists g', gkey kbs rd r c g = Ok g' /\ Tab g' /\ r < g_rows g'.
Proof.
  intros rd r c g HT Hr Hc.
  assert (ROW : forall g1 g2 (x : N), Tab g1 -> g_rows g1 = g_rows g -> Tab g2 ->
     (R0 <= r -> g_maps g2 = g_maps g1 /\ g_hook g2 = g_hook g1 /\ g_cur g2 = g_cur g1) -> r < g_rows g2).
  { intros g1 g2 x T1 E1 T2 HS. destruct (tab_code g2 T2) as (R2&C2&B1&B2&_).
    destruct (Nat.ltb_spec r R0); [lia|]. destruct (HS ltac:(auto)) as (M1&_&M3).
    destruct (tab_code g1 T1) as (R1&C1&B3&B4&_).
    destruct T1 as [cs1 (K1&K2&_)], T2 as [cs2 (K3&K4&_)].
    assert (cs1 = cs2) by (rewrite M3 in K3; congruence). subst cs2.
    destruct (proj2 sound _ _ K1) as [_ [[R [C [_ HM]]] _]].
    assert (Z : forall g', g_maps g' = tm cs1 -> g_rows g' = R).
    { intros g' EG. unfold g_rows. destruct (HM _ (map_now_lt (g_mod g'))) as [m (E&_&_)].
      rewrite EG. pose proof (proj1 (tm_table cs1 _ (map_now_lt (g_mod g')))) as X. rewrite E in X.
      rewrite (nth_error_nth _ _ no_map X). reflexivity. }
    rewrite (Z g2 K4). rewrite <- (Z g1 K2). lia. }
  unfold gkey. cbv zeta. destruct (Bool.eqb _ _).
  - destruct (reading rd r c); [|eauto].
    destruct (tab_code g HT) as (R&C&B1&B2&B3&_&_&HC). destruct (HC r c ltac:(lia) ltac:(lia)) as [x [E NS]].
    rewrite E. cbn [bind]. destruct (held_ok x g HT) as [g' E']. exists g'. split; auto.
    destruct (held_tabs x g g' E' HT) as [T' X]. split; auto. apply (ROW g g' x HT eq_refl T'). auto.
  - destruct (g_ct g r c =? 1)%N.
    + set (g1 := gp_dn _ _).
      assert (T1 : Tab g1) by (apply (Tab_eq g); auto).
      assert (W1 : g_rows g1 = g_rows g) by reflexivity. assert (W2 : g_cols g1 = g_cols g) by reflexivity.
      destruct (tab_code g1 T1) as (R&C&B1&B2&B3&_&_&HC). destruct (HC r c ltac:(lia) ltac:(lia)) as [x [E NS]].
      rewrite E. cbn [bind]. destruct (reading rd r c).
      * destruct (press_ok x g1 T1) as [g' E']. exists g'. split; auto.
        destruct (press_tabs x g1 g' E' T1) as [T' X]. split; auto. apply (ROW g1 g' x T1 W1 T'). auto.
      * eexists. split; [reflexivity|]. destruct (release_tabs x g1 T1) as [T' X]. split; auto.
        apply (ROW g1 _ x T1 W1 T'). auto.
    + eexists. split; [reflexivity|]. split; [apply (Tab_eq g); auto|exact Hr].
Qed.

Lemma cols_ok : forall n rd r c g, Tab g -> r < g_rows g ->
  exists g', gcols kbs n rd r c g = Ok g' /\ Tab g'.
Proof.
  induction n as [|n IH]; intros rd r c g HT Hr; cbn [gcols]; [eauto|].
  destruct (Nat.ltb_spec c (g_cols g)); [|eauto].
  destruct (key_ok rd r c g HT Hr H) as [g1 (E&T1&W1)]. rewrite E. cbn [bind]. apply IH; auto.
Qed.
Lemma rows_ok : forall n rd r g, Tab g -> exists g', grows kbs n rd r g = Ok g' /\ Tab g'.
Proof.
  induction n as [|n IH]; intros rd r g HT; cbn [grows]; [eauto|].
  destruct (Nat.ltb_spec r (g_rows g)); [|eauto].
  destruct (cols_ok 8 rd r 0 g HT H) as [g1 (E&T1)]. rewrite E. cbn [bind]. apply IH; auto.
Qed.

Lemma send_ok : forall g, Tab g -> exists g', gsend g = Ok g' /\ Tab g' /\ g_dn g' = g_dn g /\ g_ct g' = g_ct g.
Proof.
  assert (X : forall x g, Tab g -> exists g', gemit x g = Ok g' /\ Tab g' /\ g_dn g' = g_dn g /\ g_ct g' = g_ct g).
  { intros x g HT. unfold gemit. destruct (x <? 0xA0)%N; [|eauto].
    destruct HT as [cs (A&B&C)]. destruct (proj2 sound _ _ A) as [_ [_ HK]].
    destruct (th_sound cs HK) as [_ HH]. destruct (HH HOOK_OUTPUT ltac:(unfold HOOK_OUTPUT; lia)) as (_&E&_).
    rewrite C, E by reflexivity. eexists. split; [reflexivity|]. split; [exists cs|]; auto. }
  intros g HT. unfold gsend. cbv zeta. destruct (hd 0xA0 (g_qm g) =? 0xA0)%N.
  - apply (X _ (gp_qk (tl (g_qk g)) (gp_qm (tl (g_qm g)) g))). apply (Tab_eq g); auto.
  - apply (X _ (gnote (EvDelayMs (g_delay g)) (gp_qm (tl (g_qm g)) g))). apply (Tab_eq g); auto.
Qed.

Lemma scan_split : forall rd g, Tab g -> exists g1, ghook HOOK_EACH_SCAN g = Ok g1 /\ Tab g1 /\
  g_dn g1 = g_dn g /\ g_ct g1 = g_ct g /\ gscan kbs rd g = grows kbs 16 rd 0 g1.
Proof.
  intros rd g HT. unfold gscan. pose proof HT as [cs (A&B&C)]. destruct (proj2 sound _ _ A) as [_ [_ HK]].
  destruct (th_sound cs HK) as [_ HH].
  destruct (HH HOOK_ROW_SCANNER ltac:(unfold HOOK_ROW_SCANNER; lia)) as (E&_&_).
  rewrite C, E by reflexivity.
  destruct (tab_hook g HOOK_EACH_SCAN HT ltac:(unfold HOOK_EACH_SCAN; lia)) as [g1 E1].
  rewrite E1. cbn [bind]. exists g1. split; auto. split; [apply (Tab_eq g); auto; apply (ghook_tabs _ _ _ E1)|].
  destruct (ghook_deb _ _ _ E1) as [D1 D2]. auto.
Qed.

Lemma tick_ok : forall rd g, Tab g -> exists g', gtick kbs rd g = Ok g' /\ Tab g'.
Proof.
  intros rd g HT. unfold gtick. destruct (send_ok g HT) as [g1 (E1&T1&_)]. rewrite E1. cbn [bind].
  destruct (scan_split rd g1 T1) as [g2 (_&T2&_&_&E2)]. rewrite E2. apply rows_ok; auto.
Qed.

Lemma ticks_ok : forall rds g, Tab g -> exists g', gticks kbs rds g = Ok g' /\ Tab g'.
Proof.
  induction rds as [|rd rds IH]; intros g HT; cbn [gticks]; [eauto|].
  destruct (tick_ok rd g HT) as [g1 (E1&T1)]. rewrite E1. cbn [bind]. apply IH; auto.
Qed.

Lemma run_ok_g : forall rds, exists g s, grun kbs rds = Ok g /\ Tab g /\ c_run kbs rds = Ok s /\ GRel g s.
Proof.
  intros rds. destruct (ticks_ok rds (gboot kbs) tab_boot) as [g (E&T)].
  destruct (proj1 sound) as [cs EC]. pose proof (grun_sim kbs cs rds EC) as X.
  unfold grun in *. rewrite E in X. cbn [osim] in X. destruct X as [s [E2 R2]]. exists g, s. auto.
Qed.

(** ** The debouncer of each key *)
Definition dbp (g : gkb) (r c : nat) : bool * N := (g_dn g r c, g_ct g r c).

Lemma gkey_db : forall rd r c g g', gkey kbs rd r c g = Ok g' -> dbp g' r c = db (dbp g r c) (reading rd r c).
Proof.
  intros rd r c g g' H. unfold gkey in H. cbv zeta in H. unfold dbp, db. cbn [fst snd].
  destruct (Bool.eqb (reading rd r c) (g_dn g r c)).
  - destruct (reading rd r c); [|inv H; auto].
    apply bind_Ok_inv in H. destruct H as [x [_ H]]. apply gheld_deb in H. destruct H as [-> ->]. auto.
  - destruct (g_ct g r c =? 1)%N.
    + apply bind_Ok_inv in H. destruct H as [x [_ H]].
      assert (D : gdeb (gp_dn (set2 (g_dn g) r c (reading rd r c)) (gp_ct (set2 (g_ct g) r c 10%N) g)) g').
      { destruct (reading rd r c); [apply gpress_deb in H; exact H|]. inv H. apply grelease_deb. }
      destruct D as [-> ->]. cbn. unfold set2. rewrite !Nat.eqb_refl. reflexivity.
    + inv H. cbn. unfold set2. rewrite !Nat.eqb_refl. reflexivity.
Qed.

Variable C0 : nat.
Hypothesis wide : forall i cs m R C, kbs i = Some cs -> table_of cs 0 = Some (m, R, C) -> C0 <= C.

Lemma tab_wide : forall g, Tab g -> C0 <= g_cols g.
Proof.
  intros g HT. pose proof HT as [cs (A&B&_)]. destruct (proj2 sound _ _ A) as [_ [[R [C [_ HM]]] _]].
  destruct (HM 0 ltac:(lia)) as [m0 (E0&_)]. destruct (HM _ (map_now_lt (g_mod g))) as [m (E&_)].
  unfold g_cols. pose proof (proj1 (tm_table cs _ (map_now_lt (g_mod g)))) as X. rewrite E in X.
  rewrite B, (nth_error_nth _ _ no_map X). apply (wide _ _ _ _ _ A E0).
Qed.

Lemma cols_db : forall n rd r c g g', Tab g -> r < g_rows g -> n + c = 8 -> gcols kbs n rd r c g = Ok g' ->
  (forall r' c', r' <> r \/ c' < c -> dbp g' r' c' = dbp g r' c') /\
  (forall c', c <= c' < C0 -> dbp g' r c' = db (dbp g r c') (reading rd r c')).
Proof.
  induction n as [|n IH]; intros rd r c g g' HT Hr HN H; cbn [gcols] in H.
  - inv H. split; auto. intros c' Hc'. destruct (tab_code g' HT) as (R&C&_&_&B3&_&B5&_).
    pose proof (tab_wide g' HT). lia.
  - pose proof (tab_wide g HT) as HW. destruct (Nat.ltb_spec c (g_cols g)).
    + destruct (key_ok rd r c g HT Hr H0) as [g1 (E1&T1&W1)]. rewrite E1 in H. cbn [bind] in H.
      destruct (IH rd r (S c) g1 g' T1 W1 ltac:(lia) H) as [I1 I2].
      assert (FR : forall r' c', r' <> r \/ c' <> c -> dbp g1 r' c' = dbp g r' c').
      { intros r' c' HX. destruct (gkey_frame kbs rd r c g g1 r' c' E1 HX) as [A1 A2].
        unfold dbp. rewrite A1, A2. reflexivity. }
      split.
      * intros r' c' HX. rewrite I1 by lia. apply FR. lia.
      * intros c' HX. destruct (Nat.eq_dec c' c) as [e|ne].
        -- subst c'. rewrite I1 by lia. apply (gkey_db _ _ _ _ _ E1).
        -- rewrite I2 by lia. rewrite FR by lia. reflexivity.
    + inv H. split; auto. intros c' HX. lia.
Qed.

Lemma rows_db : forall n rd r g g', Tab g -> n + r = 16 -> grows kbs n rd r g = Ok g' ->
  (forall r' c', r' < r -> c' < C0 -> dbp g' r' c' = dbp g r' c') /\
  (forall r' c', r <= r' < R0 -> c' < C0 -> dbp g' r' c' = db (dbp g r' c') (reading rd r' c')).
Proof.
  induction n as [|n IH]; intros rd r g g' HT HN H; cbn [grows] in H;
    destruct (tab_code g HT) as (R&C&B1&B2&_&B4&_).
  - inv H. split; auto. intros r' c' Hr'. lia.
  - destruct (Nat.ltb_spec r (g_rows g)).
    + destruct (cols_ok 8 rd r 0 g HT H0) as [g1 (E1&T1)]. rewrite E1 in H. cbn [bind] in H.
      destruct (IH rd (S r) g1 g' T1 ltac:(lia) H) as [I1 I2].
      destruct (cols_db 8 rd r 0 g g1 HT H0 eq_refl E1) as [J1 J2].
      split.
      * intros r' c' HX HC. rewrite I1 by lia. apply J1. lia.
      * intros r' c' HX HC. destruct (Nat.eq_dec r' r) as [e|ne].
        -- subst r'. rewrite I1 by lia. apply J2. lia.
        -- rewrite I2 by lia. rewrite J1 by lia. reflexivity.
    + inv H. split; auto. intros r' c' HX. lia.
Qed.

Lemma tick_dbp : forall rd g g' r c, Tab g -> gtick kbs rd g = Ok g' -> r < R0 -> c < C0 ->
  dbp g' r c = db (dbp g r c) (reading rd r c).
Proof.
  intros rd g g' r c HT H Hr Hc. unfold gtick in H.
  destruct (send_ok g HT) as [g1 (E1&T1&D1&D2)]. rewrite E1 in H. cbn [bind] in H.
  destruct (scan_split rd g1 T1) as [g2 (_&T2&D3&D4&E2)]. rewrite E2 in H.
  destruct (rows_db 16 rd 0 g2 g' T2 eq_refl H) as [_ I]. rewrite I by lia.
  unfold dbp. rewrite D3, D4, D1, D2. reflexivity.
Qed.

Lemma ticks_dbp : forall rds g g' r c, Tab g -> gticks kbs rds g = Ok g' -> r < R0 -> c < C0 ->
  dbp g' r c = fold_left db (key_readings rds r c) (dbp g r c).
Proof.
  induction rds as [|rd rds IH]; intros g g' r c HT H Hr Hc; cbn [gticks key_readings map fold_left] in *.
  - inv H. reflexivity.
  - destruct (tick_ok rd g HT) as [g1 (E1&T1)]. rewrite E1 in H. cbn [bind] in H.
    rewrite (IH g1 g' r c T1 H Hr Hc). rewrite (tick_dbp rd g g1 r c HT E1 Hr Hc). reflexivity.
Qed.

Lemma boot_dbp : forall r c, dbp (gboot kbs) r c = (false, 10%N).
Proof.
  intros. unfold dbp, gboot. destruct (gswitch_same kbs 0 gzero) as (A1&A2&_). rewrite A1, A2. reflexivity.
Qed.

Lemma gdown : forall g s r c, GRel g s -> r < 16 -> c < 8 -> down s r c = g_dn g r c.
Proof.
  intros g s r c [_ HS] Hr Hc. unfold down.
  destruct (nth_error_ex _ (k_stable s) r ltac:(rewrite (rs_stlen _ _ HS); lia)) as [b EB].
  rewrite (nth_error_nth _ _ 0%N EB). apply (rs_stable _ _ HS _ _ EB). auto.
Qed.

Lemma run_dbp : forall rds s r c, c_run kbs rds = Ok s -> r < R0 -> c < C0 ->
  down s r c = fst (dstate (key_readings rds r c)).
Proof.
  intros rds s r c E Hr Hc. destruct (run_ok_g rds) as (g&s'&E1&T1&E2&RL). rewrite E in E2. inv E2.
  destruct (tab_code (gboot kbs) tab_boot) as (R&C&B1&B2&B3&B4&B5&_). pose proof (tab_wide _ tab_boot).
  rewrite (gdown g s' r c RL) by lia. unfold grun in E1.
  pose proof (ticks_dbp rds _ _ r c tab_boot E1 Hr Hc) as X. rewrite boot_dbp in X.
  unfold dstate. rewrite <- X. reflexivity.
Qed.

End Sound.

(** A check of soundness by computation. *)
Definition hook_b (id : nat) (f : hookfn) : bool :=
  match f with
  | HReadRow => id =? 2 | HSend => id =? 3 | HNull => 4 <=? id
  | HPrint m => (4 <=? id) && match format m with Some _ => true | None => false end
  | _ => id <? 2
  end.
Definition sound_b (R0 R C : nat) (cs : list setup_cmd) : bool :=
  (R0 <=? R) &&
  forallb (fun mi => match table_of cs mi with
                     | Some (m, r, k) => (r =? R) && (k =? C) && (R * C <=? length m) &&
                         forallb (fun p => negb ((0xA8 <=? nth p m 0) && (nth p m 0 <=? 0xAB))%N)
                           (seq (R0 * C) (R * C - R0 * C))
                     | None => false
                     end) (seq 0 4) &&
  forallb (fun c => match c with SHook id f => hook_b id f | _ => true end) cs.

Lemma sound_b_ok : forall R0 R C cs, sound_b R0 R C cs = true -> sound_keyboard R0 cs.
Proof.
  intros R0 R C cs H. unfold sound_b in H. apply andb_true_iff in H. destruct H as [H H3].
  apply andb_true_iff in H. destruct H as [H1 H2]. split.
  - exists R, C. split; [lia|]. intros mi Hm. rewrite forallb_forall in H2.
    specialize (H2 mi ltac:(apply in_seq; lia)). destruct (table_of cs mi) as [[[m r] k]|]; [|discriminate].
    apply andb_true_iff in H2. destruct H2 as [H2 H4]. exists m.
    assert (r = R /\ k = C) as [-> ->] by lia. split; auto. split; [lia|].
    intros r c Hr Hc. rewrite forallb_forall in H4. specialize (H4 (r * C + c)).
    unfold selects. intros X. cbv beta in H4.
    assert (Y : In (r * C + c) (seq (R0 * C) (R * C - R0 * C))) by (apply in_seq; nia).
    specialize (H4 Y). lia.
  - intros id f HI. rewrite forallb_forall in H3. specialize (H3 _ HI). cbv beta iota in H3.
    unfold sound_hook. destruct f as [| | | | |m]; unfold hook_b in H3.
    6:{ apply andb_true_iff in H3. destruct H3 as [H3 H4]. destruct (format m) as [l|] eqn:F; [|discriminate].
        apply shows_format in F. (split; [|split]); intros X; eauto; exfalso; lia. }
    all: (split; [|split]); intros X; eauto; exfalso; lia.
Qed.

(** ** C98 *)
Theorem C98_any_keymaps_safe : forall R0 kbs rds, sound_firmware R0 kbs -> exists s, c_run kbs rds = Ok s.
Proof.
  intros R0 kbs rds H. destruct (run_ok_g R0 kbs H rds) as (g&s&_&_&E&_). eauto.
Qed.
Print Assumptions C98_any_keymaps_safe.

(** Any choice of up to four of the shipped keymaps. *)
Definition choice (pick : N -> option N) (i : N) : option (list setup_cmd) :=
  match pick i with Some k => Some (setup_of k) | None => None end.
Lemma shipped_sound : forall k, (k < 6)%N -> sound_keyboard 9 (setup_of k).
Proof.
  intros k H. kcases k; [apply (sound_b_ok 9 9 8)..|apply (sound_b_ok 9 13 8)|apply (sound_b_ok 9 10 8)];
    vm_compute; reflexivity.
Qed.
Lemma choice_sound : forall pick, (exists k, pick 0%N = Some k) ->
  (forall i k, pick i = Some k -> (i < 4)%N /\ (k < 6)%N) -> sound_firmware 9 (choice pick).
Proof.
  intros pick [k0 H0] H. split.
  - unfold choice. rewrite H0. eauto.
  - intros i cs E. unfold choice in E. destruct (pick i) as [k|] eqn:EP; [|discriminate]. inv E.
    destruct (H i k EP) as [A B]. split; auto. apply shipped_sound; auto.
Qed.

Theorem C98_any_four_shipped_safe : forall pick rds, (exists k, pick 0%N = Some k) ->
  (forall i k, pick i = Some k -> (i < 4)%N /\ (k < 6)%N) ->
  exists s, c_run (choice pick) rds = Ok s.
Proof. intros pick rds H0 H. apply (C98_any_keymaps_safe 9). apply choice_sound; auto. Qed.
Print Assumptions C98_any_four_shipped_safe.

(** The Sol-20 keyboard alone, typing a key in its last row but one. *)
Definition sol_alone (i : N) : option N := if (i =? 0)%N then Some 4%N else None.
Example C98_example : obs sent (c_run (choice sol_alone) (hold 11 [(3, 1)])) = Some [nth 25 sol_caps 0%N].
Proof. vm_compute. reflexivity. Qed.

(** A fifth keyboard makes it unsafe, however sound its tables. *)
Theorem C98_fifth_keyboard_refuted : exists kbs rds,
  (forall i cs, kbs i = Some cs -> sound_keyboard 9 cs) /\ (forall i, kbs i <> None <-> (i < 5)%N) /\
  c_run kbs rds = Bad UKeymapsOob.
Proof.
  exists (choice (fun i => if (i <? 5)%N then Some 0%N else None)), (hold 20 [(8, 2)] ++ hold 20 [(8, 2); (1, 1)]).
  split; [|split].
  - intros i cs E. unfold choice in E. destruct (i <? 5)%N; [|discriminate]. inv E. apply (shipped_sound 0). lia.
  - intros i. unfold choice. destruct (N.ltb_spec i 5); split; intros; try congruence; lia.
  - vm_compute. reflexivity.
Qed.
Print Assumptions C98_fifth_keyboard_refuted.

(** So does a selection key in a row that another keyboard lacks: two keyboards
    of one and two rows, the larger with a selection key in its second row. *)
Definition small_setup (rows : nat) (m : list N) : list setup_cmd :=
  [SAddMap m 0 rows 8; SAddMap m 1 rows 8; SAddMap m 2 rows 8; SAddMap m 3 rows 8].
Definition two_sizes (i : N) : option (list setup_cmd) :=
  match i with
  | 0%N => Some (small_setup 1 [0xA8; 97; 98; 99; 100; 101; 102; 103]%N)
  | 1%N => Some (small_setup 2 [0; 97; 98; 99; 100; 101; 102; 103; 0xA8; 105; 106; 107; 108; 109; 110; 111]%N)
  | _ => None
  end.
Theorem C98_rows_refuted : exists kbs rds,
  (exists cs, kbs 0%N = Some cs) /\
  (forall i cs, kbs i = Some cs -> (i < 4)%N /\ exists R0, sound_keyboard R0 cs) /\
  c_run kbs rds = Bad UMatrixOob.
Proof.
  exists two_sizes, (hold 12 [(0, 0)] ++ hold 30 [(1, 0); (1, 1)] ++ hold 12 [(1, 1)]). split; [|split].
  - eexists. reflexivity.
  - intros i cs E. unfold two_sizes in E.
    destruct i as [|[p|p|]]; try discriminate; inv E; (split; [lia|]);
      [exists 1; apply (sound_b_ok 1 1 8) | exists 2; apply (sound_b_ok 2 2 8)]; vm_compute; reflexivity.
  - vm_compute. reflexivity.
Qed.
Print Assumptions C98_rows_refuted.

(** And so does a message with a single '%': asdf_print hands it to vfprintf as
    the format.  The message "100%" on the key with the code of HERE IS. *)
Definition full_setup : list setup_cmd :=
  small_setup 1 [0xA7; 97; 98; 99; 100; 101; 102; 103]%N ++ [SHook 5 (HPrint [49; 48; 48; 37]%N)].
Theorem C98_percent_refuted : exists kbs rds,
  (forall i : N, kbs i = (if (i =? 0)%N then Some full_setup else None)) /\
  (forall id f, In (SHook id f) full_setup -> id = 5 /\ exists m, f = HPrint m) /\
  (exists R0, sound_keyboard R0 (firstn 4 full_setup)) /\
  c_run kbs rds = Bad UFormat.
Proof.
  exists (fun i => if (i =? 0)%N then Some full_setup else None), (hold 12 [(0, 0)]). split; [|split; [|split]].
  - reflexivity.
  - intros id f HI. cbn in HI. repeat (destruct HI as [HI|HI]; [try discriminate|]); [|contradiction].
    inv HI. eauto.
  - exists 1. apply (sound_b_ok 1 1 8). vm_compute. reflexivity.
  - vm_compute. reflexivity.
Qed.
Print Assumptions C98_percent_refuted.

(** Doubled, it is sent. *)
Example C98_percent_example : obs sent (c_run (fun i => if (i =? 0)%N then
    Some (small_setup 1 [0xA7; 97; 98; 99; 100; 101; 102; 103]%N ++ [SHook 5 (HPrint [49; 48; 48; 37; 37]%N)])
  else None) (hold 16 [(0, 0)])) = Some [49; 48; 48; 37]%N.
Proof. vm_compute. reflexivity. Qed.

(** ** C99 *)

(** Every keyboard of the firmware has at least [C0] columns. *)
Definition at_least (C0 : nat) (kbs : N -> option (list setup_cmd)) : Prop :=
  forall i cs m R C, kbs i = Some cs -> table_of cs 0 = Some (m, R, C) -> C0 <= C.

Theorem C99_own_readings : forall R0 C0 R0' C0' kbs kbs' rds rds' s s' r c,
  sound_firmware R0 kbs -> at_least C0 kbs -> sound_firmware R0' kbs' -> at_least C0' kbs' ->
  c_run kbs rds = Ok s -> c_run kbs' rds' = Ok s' ->
  r < R0 -> c < C0 -> r < R0' -> c < C0' ->
  key_readings rds r c = key_readings rds' r c -> down s r c = down s' r c.
Proof.
  intros R0 C0 R0' C0' kbs kbs' rds rds' s s' r c S1 W1 S2 W2 E1 E2 H1 H2 H3 H4 HK.
  rewrite (run_dbp R0 kbs S1 C0 W1 rds s r c E1 H1 H2).
  rewrite (run_dbp R0' kbs' S2 C0' W2 rds' s' r c E2 H3 H4). rewrite HK. reflexivity.
Qed.
Print Assumptions C99_own_readings.

Theorem C99_persistent_change_accepted : forall R0 C0 kbs pre mid s s' r c,
  sound_firmware R0 kbs -> at_least C0 kbs -> r < R0 -> c < C0 ->
  c_run kbs pre = Ok s -> c_run kbs (pre ++ mid) = Ok s' -> length mid = 10 ->
  Forall (fun rd => reading rd r c = negb (down s r c)) mid ->
  down s' r c = negb (down s r c).
Proof.
  intros R0 C0 kbs pre mid s s' r c HS HW Hr Hc E E' HL HF.
  rewrite (run_dbp R0 kbs HS C0 HW _ _ r c E' Hr Hc), key_readings_app.
  pose proof (run_dbp R0 kbs HS C0 HW _ _ r c E Hr Hc) as D.
  assert (K : key_readings mid r c = repeat (negb (down s r c)) 10).
  { rewrite <- HL. clear -HF. induction HF as [|rd l H _ IH]; cbn; [auto|]. rewrite H. f_equal. exact IH. }
  rewrite K, dstate_stretch by (rewrite <- D, negb_involutive; auto).
  pose proof (dstate_range (key_readings pre r c)).
  replace (N.of_nat 10 <? snd (dstate (key_readings pre r c)))%N with false by lia. reflexivity.
Qed.
Print Assumptions C99_persistent_change_accepted.

(** A change needs ten readings of the new state while the old one was
    accepted, the last on the accepting scan. *)
Theorem C99_ten_readings_needed : forall R0 C0 kbs rds rd s s' r c,
  sound_firmware R0 kbs -> at_least C0 kbs -> r < R0 -> c < C0 ->
  c_run kbs rds = Ok s -> c_run kbs (rds ++ [rd]) = Ok s' -> down s' r c <> down s r c ->
  reading rd r c = down s' r c /\
  exists n, n <= length rds /\ differing (down s r c) (key_readings (skipn n rds ++ [rd]) r c) = 10 /\
    forall m s1, n <= m <= length rds -> c_run kbs (firstn m rds) = Ok s1 -> down s1 r c = down s r c.
Proof.
  intros R0 C0 kbs rds rd s s' r c HS HW Hr Hc E E' HN.
  assert (DD : forall l x, c_run kbs l = Ok x -> down x r c = fst (dstate (key_readings l r c)))
    by (intros l x EX; apply (run_dbp R0 kbs HS C0 HW l x r c EX Hr Hc)).
  rewrite (DD _ _ E') in *. rewrite (DD _ _ E) in *.
  rewrite key_readings_app in *. change (key_readings [rd] r c) with [reading rd r c] in *.
  rewrite dstate_snoc in *. set (L := key_readings rds r c) in *.
  destruct (dstate_since L) as (pre&mid&EL&_&SS&NN&BB).
  unfold db in *. destruct (Bool.eqb (reading rd r c) (fst (dstate L))) eqn:EB; [congruence|].
  destruct (N.eqb_spec (snd (dstate L)) 1); [|cbn in HN; congruence].
  split; [reflexivity|].
  assert (LL : length L = length rds) by (unfold L, key_readings; apply map_length).
  assert (LP : length pre + length mid = length rds) by (rewrite <- LL, EL, app_length; reflexivity).
  exists (length pre). split; [lia|]. split.
  - rewrite key_readings_app. change (key_readings [rd] r c) with [reading rd r c].
    assert (K : key_readings (skipn (length pre) rds) r c = mid).
    { unfold key_readings. rewrite <- skipn_map. fold (key_readings rds r c). fold L.
      rewrite EL, skipn_app, Nat.sub_diag, skipn_all. reflexivity. }
    rewrite K, differing_snoc, EB. lia.
  - intros m s1 Hm E1. rewrite (DD _ _ E1). rewrite <- firstn_map_readings. fold L.
    replace (firstn m L) with (pre ++ firstn (m - length pre) mid)
      by (rewrite EL, firstn_app, (firstn_all2 pre) by lia; reflexivity).
    apply SS. lia.
Qed.
Print Assumptions C99_ten_readings_needed.

(** A tiny keyboard, one key pressed for ten scans. *)
Definition tiny (i : N) : option (list setup_cmd) :=
  if (i =? 0)%N then Some (small_setup 1 [97; 98; 99; 100; 101; 102; 103; 104]%N) else None.
Lemma tiny_sound : sound_firmware 1 tiny /\ at_least 8 tiny.
Proof.
  split; [split|].
  - eexists. reflexivity.
  - intros i cs E. unfold tiny in E. destruct (N.eqb_spec i 0); inv E. split; [lia|].
    apply (sound_b_ok 1 1 8). vm_compute. reflexivity.
  - intros i cs m R C E. unfold tiny in E. destruct (i =? 0)%N; inv E. cbn. intros X. inv X. auto.
Qed.
Example C99_example :
  obs (fun s => (down s 0 3, down s 0 4)) (c_run tiny (hold 9 [(0, 3)])) = Some (false, false) /\
  obs (fun s => (down s 0 3, down s 0 4)) (c_run tiny (hold 10 [(0, 3)])) = Some (true, false).
Proof. split; vm_compute; reflexivity. Qed.
