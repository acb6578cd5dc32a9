(** C18, second half: the scanner with arbitrary registered maps. *)
From Coq Require Import List NArith ZArith Arith Bool Lia.
From Coq Require Import ZifyBool ZifyNat ZifyN.
From Verif Require Import Base Lib Buffer Repeat Devices Modifiers Hook KeymapData Asdf Obs PropKeymaps.
Import ListNotations.
Local Open Scope outcome_scope.

(** The scanner with arbitrary registered maps: whatever was registered, by any
    calls with any arguments, no scan indexes last_stable_key_state or
    debounce_counters out of bounds. *)
Definition bounded (s : kb) : Prop :=
  length (k_stable s) = 16 /\ length (k_cnt s) = 128 /\
  Forall (fun m => km_rows m <= 16 /\ km_cols m <= 8) (k_maps s).
Definition no_oob {A} (o : outcome A) : Prop := o <> Bad UScanOob.
Definition fine (o : outcome kb) : Prop :=
  match o with Ok s => bounded s | Bad u => u <> UScanOob end.

Lemma no_bind : forall A B (x : outcome A) (k : A -> outcome B),
  no_oob x -> (forall a, x = Ok a -> no_oob (k a)) -> no_oob (bind x k).
Proof. intros A B [a|u] k H H0; cbn; auto. unfold no_oob in *. congruence. Qed.
Lemma no_ok : forall A (a : A), no_oob (Ok a).
Proof. discriminate. Qed.
Lemma no_bad : forall A u, u <> UScanOob -> no_oob (@Bad A u).
Proof. unfold no_oob. congruence. Qed.
Lemma no_get : forall A u (l : list A) i, u <> UScanOob -> no_oob (lget u l i).
Proof. intros. unfold lget, no_oob. destruct (nth_error l i); congruence. Qed.
Lemma no_set : forall A u (l : list A) i x, u <> UScanOob -> no_oob (lset u l i x).
Proof. intros. unfold lset, no_oob. destruct (i <? length l); congruence. Qed.
Lemma fine_bind : forall A (x : outcome A) k,
  no_oob x -> (forall a, x = Ok a -> fine (k a)) -> fine (bind x k).
Proof. intros A [a|u] k H H0; cbn; auto. unfold no_oob in *. congruence. Qed.
Lemma fine_then : forall x k, fine x -> (forall a, bounded a -> fine (k a)) -> fine (bind x k).
Proof. intros [a|u] k H H0; cbn; auto. Qed.
Ltac noob := repeat
  match goal with
  | |- no_oob (Ok _) => apply no_ok
  | |- no_oob (bind _ _) => apply no_bind; [|intros]
  | |- no_oob (lget _ _ _) => apply no_get; discriminate
  | |- no_oob (lset _ _ _ _) => apply no_set; discriminate
  | |- no_oob (Bad _) => apply no_bad; discriminate
  | |- no_oob (if ?b then _ else _) => destruct b
  | |- no_oob (match ?x with _ => _ end) => destruct x
  | |- no_oob (let x := _ in _) => cbn zeta
  end.

Lemma no_buffer_put : forall h c b, no_oob (buffer_put h c b).
Proof. intros. unfold buffer_put, zget, zset, advance, int16, lget, lset. noob. Qed.
Lemma no_buffer_get : forall h b, no_oob (buffer_get h b).
Proof. intros. unfold buffer_get, zget, zset, advance, int16, lget, lset. noob. Qed.
Lemma no_physical_set : forall o v d, no_oob (physical_set o v d).
Proof. intros. unfold physical_set. noob. Qed.
Lemma no_toggle : forall o d, no_oob (physical_toggle o d).
Proof. intros. unfold physical_toggle. noob; apply no_physical_set. Qed.
Lemma no_map : forall f, (forall o d, no_oob (f o d)) -> forall n o d, no_oob (map_function n f o d).
Proof.
  intros f H. induction n as [|n IH]; intros; cbn [map_function]; unfold next_device; noob; auto.
Qed.
Lemma no_action : forall v f d, no_oob (virtual_action v f d).
Proof.
  intros. unfold virtual_action, vmap, physical_on, physical_off. noob;
    apply no_map; intros; try apply no_toggle; apply no_physical_set.
Qed.
Lemma no_avail : forall n x y z d, no_oob (avail_loop n x y z d).
Proof. induction n as [|n IH]; intros; cbn [avail_loop]; unfold next_device; noob; auto. Qed.
Lemma no_assign : forall v p f i d, no_oob (virtual_assign v p f i d).
Proof.
  intros. unfold virtual_assign, physical_allocate, device_is_available, next_device. noob; apply no_avail.
Qed.
Lemma no_md : forall f s, (forall x, no_oob (f x)) -> no_oob (on_md f s).
Proof. intros. unfold on_md. noob; auto. Qed.
Lemma no_caps : forall x, no_oob (capslock_activate x).
Proof. intros. unfold capslock_activate, set_caps_state. noob; apply no_action. Qed.
Lemma no_shift : forall n x, no_oob (set_shift_state n x).
Proof. intros. unfold set_shift_state. noob; apply no_action. Qed.

(** Functions that leave the scanner's arrays and the maps alone. *)
Definition frame (s s' : kb) : Prop :=
  k_stable s' = k_stable s /\ k_cnt s' = k_cnt s /\ k_maps s' = k_maps s.
Lemma bounded_frame : forall s s', frame s s' -> bounded s -> bounded s'.
Proof. unfold frame, bounded. intros s s' (->&->&->). auto. Qed.

Lemma fine_md : forall f s, (forall x, no_oob (f x)) -> bounded s -> fine (on_md f s).
Proof. intros. unfold on_md. apply fine_bind; auto. Qed.
Lemma fine_dev : forall f s, no_oob (f (k_dev s)) -> bounded s -> fine (on_dev f s).
Proof. intros. unfold on_dev. apply fine_bind; auto. Qed.

Lemma fine_putc : forall c s, bounded s -> fine (putc c s).
Proof.
  intros. unfold putc. apply fine_bind.
  - destruct (c =? 10)%N; [apply no_buffer_put | apply no_ok].
  - intros. apply fine_bind; [apply no_buffer_put|]. intros. exact H.
Qed.
Lemma fine_print : forall m s, bounded s -> fine (print m s).
Proof.
  intros m. remember (length m) as n eqn:E. revert m E.
  induction n as [n IH] using lt_wf_ind. intros m E s H. destruct m as [|c m]; cbn [print]; [exact H|]. cbn [length] in E.
  destruct (c =? 37)%N.
  - destruct m as [|d m]; [discriminate|]. destruct (d =? 37)%N; [|discriminate]. cbn [length] in E.
    apply fine_then; [apply fine_putc; auto|]. intros. eapply IH; [|reflexivity|auto]. lia.
  - apply fine_then; [apply fine_putc; auto|]. intros. eapply IH; [|reflexivity|auto]. lia.
Qed.
Lemma fine_execute : forall id s, bounded s -> fine (hook_execute id s).
Proof.
  intros. unfold hook_execute. destruct (hook_valid_id id); [|exact H].
  apply fine_bind; [apply no_get; discriminate|]. intros f _.
  destruct f; try exact H; try discriminate. apply fine_print; auto.
Qed.

Lemma Forall_upd : forall (P : kmap -> Prop) l i x, Forall P l -> P x -> Forall P (upd l i x).
Proof.
  induction l as [|y l IH]; intros i x H Hx; cbn; auto. inv H. destruct i; constructor; auto.
Qed.
Lemma fine_add : forall m mi r c s, bounded s -> fine (add_map m mi r c s).
Proof.
  intros m mi r c s (A&B&C). unfold add_map. change max_rows with 16. change max_cols with 8.
  destruct ((mi <? num_modifiers) && (r <=? 16) && (c <=? 8)) eqn:E; [|repeat split; auto].
  unfold lset. destruct (mi <? length (k_maps s)); cbn; [|discriminate].
  split; auto. split; auto. apply Forall_upd; auto. cbn. lia.
Qed.
Lemma fine_setup : forall cs s, bounded s -> fine (setup_run cs s).
Proof.
  induction cs as [|c cs IH]; intros s H; cbn [setup_run]; [exact H|].
  apply fine_then; [|auto]. destruct c; cbn [setup_step]; auto.
  - apply fine_add; auto.
  - apply fine_bind; [unfold hook_assign; noob|]. intros. exact H.
  - apply fine_dev; auto. apply no_assign.
  - apply fine_md; auto. apply no_caps.
Qed.
Lemma fine_select : forall i s, bounded s -> fine (keymaps_select i s).
Proof.
  intros i s H. unfold keymaps_select, keymaps_switch, keymaps_reset.
  destruct (i =? k_cur s)%N; [exact H|]. destruct (keymap_valid i); [|exact H].
  apply fine_then; [|intros; apply fine_setup; auto].
  do 4 (apply fine_then; [apply fine_add; auto|]; intros). auto.
Qed.

Lemma fine_on : forall c s, bounded s -> fine (activate_action c s).
Proof.
  intros c s H. unfold activate_action, map_select_set, on_rep.
  destruct (decode c); try exact H; try (apply fine_execute; auto; fail);
    try (apply fine_md; auto; intros;
         first [apply no_caps | unfold shift_activate, shiftlock_on_activate, shiftlock_toggle_activate, ctrl_activate;
                noob; try apply no_shift]; fail).
  - apply fine_select; auto.
  - apply fine_dev; auto. unfold virtual_activate. noob; apply no_action.
  - apply fine_dev; auto. unfold virtual_activate. noob; apply no_action.
  - destruct (n <=? 10); [apply fine_execute; auto | exact H].
Qed.
Lemma fine_off : forall c s, bounded s -> fine (deactivate_action c s).
Proof.
  intros c s H. unfold deactivate_action, map_select_clear, on_rep.
  destruct (decode c); try exact H; try (apply fine_select; auto; fail);
    apply fine_md; auto; intros; unfold shift_deactivate, ctrl_deactivate; noob; apply no_shift.
Qed.
Lemma fine_key_on : forall c s, bounded s -> fine (activate_key c s).
Proof.
  intros c s H. unfold activate_key. destruct (ASDF_ACTION <? c)%N; [apply fine_on; auto|].
  apply fine_then.
  - unfold put_code. apply fine_bind; [apply no_buffer_put|]. intros. exact H.
  - intros a Ha. destruct (k_last a =? c)%N; exact Ha.
Qed.
Lemma fine_key_off : forall c s, bounded s -> fine (deactivate_key c s).
Proof.
  intros c s H. unfold deactivate_key. destruct (ASDF_ACTION <? c)%N; [apply fine_off; auto|].
  destruct (k_last s =? c)%N; exact H.
Qed.
Lemma no_index : forall m, no_oob (modifier_index m).
Proof. intros. unfold modifier_index. noob. Qed.
Lemma no_lookup : forall r c s, no_oob (lookup_keycode r c s).
Proof. intros. unfold lookup_keycode, get_code. apply no_bind; [apply no_index|]. intros. noob. Qed.
Lemma no_dims : forall s, no_oob (active_map s).
Proof. intros. unfold active_map. apply no_bind; [apply no_index|]. intros. noob. Qed.

Lemma cnt_set_ok : forall r c v s, bounded s -> r < 16 -> c < 8 ->
  exists l, cnt_set r c v s = Ok (set_cnt l s) /\ bounded (set_cnt l s).
Proof.
  intros r c v s (A&B&C) Hr Hc. unfold cnt_set. change max_cols with 8. rewrite (proj2 (Nat.ltb_lt _ _) Hc).
  rewrite lset_ok by lia. eexists. split; [reflexivity|]. split; auto. split; auto. cbn. rewrite upd_length; auto.
Qed.

Lemma fine_change : forall r c p s, bounded s -> r < 16 -> c < 8 -> fine (handle_change r c p s).
Proof.
  intros r c p s H Hr Hc. unfold handle_change.
  apply fine_bind.
  { unfold cnt_get. change max_cols with 8. rewrite (proj2 (Nat.ltb_lt _ _) Hc).
    destruct H as (A&B&C). assert (HL : r * 8 + c < length (k_cnt s)) by lia.
    destruct (nth_error_ex _ _ _ HL) as [x E]. unfold lget. rewrite E. apply no_ok. }
  intros n _. cbn zeta. destruct (cnt_set_ok r c (u8 (n + 255)) s H Hr Hc) as [l1 [E1 B1]].
  rewrite E1. cbn [bind]. destruct (u8 (n + 255) =? 0)%N; [|exact B1].
  destruct (cnt_set_ok r c DEBOUNCE _ B1 Hr Hc) as [l2 [E2 B2]]. rewrite E2. cbn [bind].
  assert (HL : r < length (k_stable s)) by (destruct H as (A&_); lia).
  cbn [k_stable set_cnt].
  apply fine_bind; [destruct (nth_error_ex _ _ _ HL) as [x E]; unfold lget; rewrite E; apply no_ok|].
  intros st _. rewrite !lset_ok by exact HL. cbn [bind].
  assert (X : forall y, bounded (set_stable (upd (k_stable s) r y) (set_cnt l2 (set_cnt l1 s)))).
  { intros y. destruct B2 as (A&B&C). split; [cbn; rewrite upd_length; apply H|]. auto. }
  destruct p; (apply fine_bind; [apply no_lookup|]); intros; [apply fine_key_on | apply fine_key_off]; auto.
Qed.
Lemma fine_held : forall r c s, bounded s -> fine (handle_held r c s).
Proof.
  intros r c s H. unfold handle_held. apply fine_bind; [apply no_lookup|]. intros code _.
  destruct (code =? k_last s)%N; [|exact H]. destruct (repeat_tick (k_rep s)) as [[] x]; [|exact H].
  apply fine_key_on; auto.
Qed.

Lemma dims_ok : forall s m, bounded s -> active_map s = Ok m -> km_rows m <= 16 /\ km_cols m <= 8.
Proof.
  intros s m (A&B&C) E. unfold active_map in E. apply bind_ok in E. destruct E as [mi [_ E]].
  apply lget_ok in E. rewrite Forall_forall in C. apply C. eapply nth_error_In; eauto.
Qed.

Lemma fine_cols : forall n r c x y s, bounded s -> r < 16 -> fine (cols_loop n r c x y s).
Proof.
  induction n as [|n IH]; intros r c x y s H Hr; cbn [cols_loop]; [discriminate|].
  unfold num_cols. apply fine_bind; [apply no_bind; [apply no_dims | intros; apply no_ok]|].
  intros k E. apply bind_ok in E. destruct E as [m [E1 E2]]. inv E2.
  destruct (dims_ok _ _ H E1) as [_ D]. destruct (Nat.ltb_spec c (km_cols m)); [|exact H].
  apply fine_then; [|intros; apply IH; auto].
  destruct (N.odd y); [apply fine_change; auto; lia|]. destruct (N.odd x); [apply fine_held; auto|exact H].
Qed.
Lemma fine_rows : forall n rd r s, bounded s -> fine (rows_loop n rd r s).
Proof.
  induction n as [|n IH]; intros rd r s H; cbn [rows_loop]; [discriminate|].
  unfold num_rows. apply fine_bind; [apply no_bind; [apply no_dims | intros; apply no_ok]|].
  intros k E. apply bind_ok in E. destruct E as [m [E1 E2]]. inv E2.
  destruct (dims_ok _ _ H E1) as [D _]. destruct (Nat.ltb_spec r (km_rows m)); [|exact H].
  assert (HL : r < length (k_stable s)) by (destruct H as (A&_); lia).
  apply fine_bind; [destruct (nth_error_ex _ _ _ HL) as [x E]; unfold lget; rewrite E; apply no_ok|].
  intros st _. apply fine_then; [apply fine_cols; auto; lia|]. intros. apply IH; auto.
Qed.
Lemma fine_tick : forall rd s, bounded s -> fine (tick rd s).
Proof.
  intros rd s H. unfold tick. apply fine_bind.
  { unfold next_code. apply no_bind; [apply no_buffer_get|]. intros [c b] _.
    destruct (c =? INVALID)%N; noob; apply no_buffer_get. }
  intros [c s1] E.
  assert (B1 : bounded s1).
  { unfold next_code in E. apply bind_ok in E. destruct E as [[c1 b1] [_ E]].
    destruct (c1 =? INVALID)%N; [|inv E; exact H].
    apply bind_ok in E. destruct E as [[c2 b2] [_ E]]. inv E. exact H. }
  apply fine_then.
  - destruct (c <? INVALID)%N; [|exact B1]. unfold output. apply fine_bind; [unfold hook_get; noob|].
    intros f _. destruct f; try discriminate. exact B1.
  - intros s2 B2. unfold keyscan. apply fine_bind; [unfold hook_get; noob|].
    intros f _. destruct f; try discriminate.
    apply fine_then; [apply fine_execute; auto|]. intros. apply fine_rows; auto.
Qed.
Lemma fine_ticks : forall rds s, bounded s -> fine (ticks rds s).
Proof.
  induction rds as [|rd rds IH]; intros s H; cbn [ticks]; [exact H|].
  apply fine_then; [apply fine_tick; auto|]. intros. apply IH; auto.
Qed.
Lemma fine_adds : forall cs s, bounded s -> fine (add_run cs s).
Proof.
  induction cs as [|[[[m mi] r] c] cs IH]; intros s H; cbn [add_run]; [exact H|].
  apply fine_then; [apply fine_add; auto|]. intros. apply IH; auto.
Qed.

(** [s] is any state with the scanner arrays of the right size; its maps, and
    whatever other state it has, are arbitrary within the dimension limit. *)
Theorem C18_scanner_in_bounds : forall cs s s' rds,
  bounded s -> add_run cs s = Ok s' -> ticks rds s' <> Bad UScanOob.
Proof.
  intros cs s s' rds H E. pose proof (fine_adds cs s H) as F. rewrite E in F. cbn in F.
  pose proof (fine_ticks rds s' F) as G. intros X. rewrite X in G. cbn in G. auto.
Qed.
Print Assumptions C18_scanner_in_bounds.

(** After power-on, a full-size map of 16 rows and 8 columns registered over the
    classic one, and attempts to register larger ones: all 128 keys down. *)
Example C18_scanner_example :
  obs (fun s => (map (down s 15) (seq 0 8), length (key_queue s)))
    (s <- boot ;; s1 <- add_run [(Some (repeat 65%N 128), 0, 16, 8); (Some [], 0, 17, 8); (None, 0, 255, 255)] s ;;
     ticks (repeat (fun _ => 255%N) 10) s1)
  = Some (repeat true 8, 16).
Proof. vm_compute. reflexivity. Qed.
Example C18_bounded_boot : match boot with Ok s => bounded s | Bad _ => False end.
Proof.
  assert (X : obs (fun s => (length (k_stable s), length (k_cnt s),
     forallb (fun m => (km_rows m <=? 16) && (km_cols m <=? 8)) (k_maps s))) boot = Some (16, 128, true))
    by (vm_compute; reflexivity).
  apply obs_some in X. destruct X as [s [-> X]]. apply pair_equal_spec in X. destruct X as [X X3].
  apply pair_equal_spec in X. destruct X as [X1 X2]. split; auto. split; auto.
  apply Forall_forall. intros m Hm. rewrite forallb_forall in X3. specialize (X3 m Hm). lia.
Qed.
