(** Every call a firmware built from any keymaps makes, exactly (C108). *)
From Coq Require Import List NArith ZArith Arith Bool Lia.
From Coq Require Import ZifyBool ZifyNat ZifyN.
From Verif Require Import Base Lib Buffer BufferSpec BufferProofs Repeat Devices DevSpec DevProofs
     Modifiers Hook KeymapData Asdf KeySpec KeyRef Obs PropDebounce.
From Verif Require Avr Arch328p Arch2560 PropArch328 PropArch2560 PropHost328 PropHost2560 PropPins328 PropPins2560.
From Verif Require Import PinSpec PropPins Host PropHost System PropSystem Custom CustomSpec CustomRef PropCustom PropEvents PropFlow PropExact
     CustomSystem PropBoard.
Import ListNotations.
Local Open Scope outcome_scope.

(** ** Specification *)

(** The front panel: which physical device hangs on which virtual output at
    which level, the latest first; what pressing the key of each virtual output
    does; and the pause before each character of a message. *)
Record device := mkDevice { d_phys : nat; d_virt : nat; d_level : N }.
Record panel := mkPanel { n_devices : list device; n_does : nat -> vfun; n_pause : N }.
Definition bare_panel (pause : N) : panel := mkPanel [] (fun _ => V_NOFUNC) pause.

(** Give all devices of an output a new level, computed from the old one. *)
Definition put (v : nat) (f : N -> N) (n : panel) : panel * list event :=
  let d' d := if d_virt d =? v then mkDevice (d_phys d) (d_virt d) (f (d_level d)) else d in
  (mkPanel (map d' (n_devices n)) (n_does n) (n_pause n),
   flat_map (fun d => if d_virt d =? v then [EvOut (d_phys d) (f (d_level d))] else []) (n_devices n)).
Definition pulse (v : nat) (e : event) (n : panel) : panel * list event :=
  let '(n1, l1) := put v opposite n in
  let '(n2, l2) := put v opposite n1 in (n2, l1 ++ e :: l2).
Definition works (v : nat) (f : vfun) (n : panel) : panel * list event :=
  match f with
  | V_NOFUNC => (n, [])
  | V_SET_HI => put v (fun _ => 1%N) n
  | V_SET_LO => put v (fun _ => 0%N) n
  | V_TOGGLE => put v opposite n
  | V_PULSE_SHORT => pulse v EvPulseShort n
  | V_PULSE_LONG => pulse v EvPulseLong n
  end.
Definition lamp (v : nat) (on : bool) (n : panel) : panel * list event :=
  put v (fun _ => if on then 1%N else 0%N) n.

(** One line of a setup function; CAPS LOCK is [caps] before. *)
Definition assigns (v p : nat) (f : vfun) (i : N) (n : panel) : panel :=
  if (1 <=? v) && (v <=? 11) && ((1 <=? p) && (p <=? 12)) && negb (existsb (fun d => d_phys d =? p) (n_devices n))
  then mkPanel (mkDevice p v i :: n_devices n) (fun w => if w =? v then f else n_does n w) (n_pause n) else n.
Fixpoint sets_up (cs : list setup_cmd) (caps : bool) (n : panel) : panel * list event :=
  match cs with
  | [] => (n, [])
  | SAssign v p f i :: cs => sets_up cs caps (assigns v p f i n)
  | SDelay ms :: cs => sets_up cs caps (mkPanel (n_devices n) (n_does n) (u8 ms))
  | SCapslock :: cs =>
      let '(n1, l1) := lamp VCAPS_LED (negb caps) n in
      let '(n2, l2) := sets_up cs (negb caps) n1 in (n2, l1 ++ l2)
  | SNegStrobe :: cs => let '(n1, l1) := sets_up cs caps n in (n1, EvStrobeNeg :: l1)
  | _ :: cs => sets_up cs caps n
  end.
(** Selecting a keyboard starts from a bare panel; the pause stays. *)
Definition selects (kbs : N -> option (list setup_cmd)) (i : N) (e : setting) (n : panel) : panel * list event :=
  if (i =? e_kb e)%N then (n, [])
  else match kbs i with
       | Some cs => let '(n1, l) := sets_up cs (e_caps e) (bare_panel (n_pause n)) in (n1, EvArchInit :: l)
       | None => (n, [])
       end.

(** What a move does to the panel and which calls it makes; [e] are the modes
    before it. *)
Definition acts (kbs : N -> option (list setup_cmd)) (e : setting) (n : panel) (v : nat * nat * move) : panel * list event :=
  let '(r, c, m) := v in
  let x := code_in kbs e r c in
  match m with
  | Press =>
      match decode x with
      | AShift => lamp VSHIFT_LED false n
      | AShiftlockOn => lamp VSHIFT_LED true n
      | AShiftlockToggle => lamp VSHIFT_LED (negb (e_lock e)) n
      | ACaps => lamp VCAPS_LED (negb (e_caps e)) n
      | AMapsel k => selects kbs (u8 (N.setbit (e_kb e) k)) e n
      | AStrobe => (n, [EvStrobePos])
      | AVled k => works (6 + k) (n_does n (6 + k)) n
      | AVout k => works k (n_does n k) n
      | _ => (n, [])
      end
  | Release =>
      match decode x with
      | AShift => lamp VSHIFT_LED false n
      | AMapsel k => selects kbs (u8 (N.clearbit (e_kb e) k)) e n
      | AStrobe => (n, [EvStrobeNeg])
      | _ => (n, [])
      end
  | Held => (n, [])
  end.

(** The pause comes with characters of messages only. *)
Definition waits (t : typist) (n : panel) : list event :=
  if (hd 0xA0%N (t_msgs t) =? 0xA0)%N then [] else [EvDelayMs (n_pause n)].

(** The typist of C104, the panel, and the calls so far. *)
Record office := mkOffice { o_typist : typist; o_panel : panel; o_calls : list event }.
Definition moves (kbs : N -> option (list setup_cmd)) (o : office) (v : nat * nat * move) : office :=
  let '(n, l) := acts kbs (t_set (o_typist o)) (o_panel o) v in
  mkOffice (moved kbs (o_typist o) v) n (o_calls o ++ l).
Definition begins (kbs : N -> option (list setup_cmd)) (o : office) : office :=
  mkOffice (scan_starts kbs (o_typist o)) (o_panel o)
    (o_calls o ++ waits (o_typist o) (o_panel o) ++ leaves (o_typist o)).
Definition opens (kbs : N -> option (list setup_cmd)) : office :=
  let '(n, l) := match kbs 0%N with Some cs => sets_up cs false (bare_panel 0) | None => (bare_panel 0, []) end in
  mkOffice (starts kbs) n (EvArchInit :: l).
Fixpoint works_on (kbs : N -> option (list setup_cmd)) (R C : nat) (pre rds : list (nat -> N)) (o : office) : office :=
  match rds with
  | [] => o
  | rd :: l => works_on kbs R C (pre ++ [rd]) l (fold_left (moves kbs) (scan_moves R C pre rd) (begins kbs o))
  end.
Definition calls_of_run (kbs : N -> option (list setup_cmd)) (R C : nat) (rds : list (nat -> N)) : list event :=
  o_calls (works_on kbs R C [] rds (opens kbs)).

(** ** The panel and the device tables *)
(** Driving the devices of one output. *)
Lemma drive_put : forall f v ds lv, NoDup (map d_phys ds) -> (forall d, In d ds -> lv (d_phys d) = d_level d) ->
  let l := flat_map (fun d => if d_virt d =? v then [d_phys d] else []) ds in
  snd (drive f l lv) = flat_map (fun d => if d_virt d =? v then [EvOut (d_phys d) (f (d_level d))] else []) ds /\
  (forall d, In d ds -> fst (drive f l lv) (d_phys d) = if d_virt d =? v then f (d_level d) else d_level d) /\
  (forall p, ~ In p (map d_phys ds) -> fst (drive f l lv) p = lv p).
Proof.
  intros f v. induction ds as [|d ds IH]; intros lv ND HL l; [repeat split; intros; cbn in *; tauto|].
  cbn [map] in ND. inversion ND as [|? ? NI ND']. subst.
  cbn [flat_map] in l. destruct (d_virt d =? v) eqn:EV.
  - subst l. cbn [app drive]. rewrite (HL d (or_introl eq_refl)).
    assert (HL' : forall e, In e ds -> set_at lv (d_phys d) (f (d_level d)) (d_phys e) = d_level e).
    { intros e He. unfold set_at. destruct (Nat.eqb_spec (d_phys e) (d_phys d)) as [Q|Q].
      - exfalso. apply NI. rewrite <- Q. apply in_map. exact He.
      - apply HL. right. exact He. }
    destruct (IH _ ND' HL') as (I1&I2&I3). cbv zeta in *.
    destruct (drive f (flat_map (fun d0 => if d_virt d0 =? v then [d_phys d0] else []) ds) (set_at lv (d_phys d) (f (d_level d)))) as [lv2 ev].
    cbn [fst snd] in *. split; [cbn [flat_map]; rewrite EV, I1; reflexivity|]. split.
    + intros e [<-|He]; [|apply I2; exact He]. rewrite EV, (I3 _ NI). unfold set_at. rewrite Nat.eqb_refl. reflexivity.
    + intros p Hp. cbn [map In] in Hp. rewrite I3 by tauto. unfold set_at. destruct (Nat.eqb_spec p (d_phys d)); [subst; tauto|reflexivity].
  - subst l. cbn [app]. destruct (IH lv ND' (fun e He => HL e (or_intror He))) as (I1&I2&I3). cbv zeta in *.
    split; [cbn [flat_map]; rewrite EV; exact I1|]. split.
    + intros e [<-|He]; [|apply I2; exact He]. rewrite EV, (I3 _ NI). apply HL. left. reflexivity.
    + intros p Hp. cbn [map In] in Hp. apply I3. tauto.
Qed.

Definition PV (vs : vspec) (n : panel) : Prop :=
  (forall v, own vs v = flat_map (fun d => if d_virt d =? v then [d_phys d] else []) (n_devices n)) /\
  (forall d, In d (n_devices n) -> lev vs (d_phys d) = d_level d) /\
  (forall v, fn vs v = n_does n v) /\ NoDup (map d_phys (n_devices n)) /\
  (forall d, In d (n_devices n) -> 1 <= d_virt d <= 11).

Lemma put_ok : forall f v vs n, PV vs n ->
  PV (mkVspec (own vs) (fn vs) (fst (drive f (own vs v) (lev vs)))) (fst (put v f n)) /\
  snd (drive f (own vs v) (lev vs)) = snd (put v f n).
Proof.
  intros f v vs n (A&B&C&D&E). rewrite A. destruct (drive_put f v (n_devices n) (lev vs) D B) as (I1&I2&I3).
  cbv zeta in *. unfold put. cbn [fst snd]. split; [|exact I1].
  assert (FD : forall ds (h : device -> list nat), (forall d k, h (mkDevice (d_phys d) (d_virt d) k) = h d) ->
    flat_map h (map (fun d => if d_virt d =? v then mkDevice (d_phys d) (d_virt d) (f (d_level d)) else d) ds) = flat_map h ds).
  { intros ds h Hh. induction ds as [|d ds IH]; [reflexivity|]. cbn [map flat_map].
    rewrite IH. destruct (d_virt d =? v); rewrite ?Hh; reflexivity. }
  unfold PV. cbn [own fn lev n_devices n_does].
  split; [intros w; rewrite A; symmetry; apply FD; reflexivity|].
  split.
  { intros d Hd. apply in_map_iff in Hd. destruct Hd as [e [<- He]]. specialize (I2 e He).
    destruct (d_virt e =? v); cbn [d_phys d_level]; exact I2. }
  split; [exact C|]. split.
  - rewrite map_map. erewrite map_ext; [exact D|]. intros d. cbn. destruct (d_virt d =? v); reflexivity.
  - intros d Hd. apply in_map_iff in Hd. destruct Hd as [e [<- He]]. specialize (E e He). destruct (d_virt e =? v); exact E.
Qed.

Definition psim (n : panel) (g : gkb) : Prop := PV (g_vs g) n /\ g_delay g = n_pause n.
Definition calls_to (g g' : gkb) (l : list event) : Prop := rev (g_log g') = rev (g_log g) ++ l.
Lemma calls_none : forall g g', g_log g' = g_log g -> calls_to g g' [].
Proof. intros g g' H. unfold calls_to. rewrite H, app_nil_r. reflexivity. Qed.
Lemma calls_note : forall e g, calls_to g (gnote e g) [e].
Proof. intros. reflexivity. Qed.

Lemma act_ok : forall f v n g, psim n g ->
  psim (fst (works v f n)) (gact f v g) /\ calls_to g (gact f v g) (snd (works v f n)).
Proof.
  intros f v n g [P D].
  assert (K : forall f h, f <> V_NOFUNC -> spec_action f (own (g_vs g) v) (lev (g_vs g)) = drive h (own (g_vs g) v) (lev (g_vs g)) ->
    works v f n = put v h n -> psim (fst (works v f n)) (gact f v g) /\ calls_to g (gact f v g) (snd (works v f n))).
  { intros f0 h NF E1 E2. rewrite E2. destruct (put_ok h v _ _ P) as [P1 P2]. unfold gact. rewrite E1.
    destruct (drive h (own (g_vs g) v) (lev (g_vs g))) as [lv ev]. cbn [fst snd] in *. split; [split; [exact P1|exact D]|].
    unfold calls_to. cbn [gp_log g_log]. rewrite rev_app_distr, rev_involutive, P2. reflexivity. }
  assert (KP : forall f e, spec_action f (own (g_vs g) v) (lev (g_vs g)) =
      (let '(l1, e1) := drive opposite (own (g_vs g) v) (lev (g_vs g)) in
       let '(l2, e2) := drive opposite (own (g_vs g) v) l1 in (l2, e1 ++ e :: e2)) ->
    works v f n = pulse v e n -> psim (fst (works v f n)) (gact f v g) /\ calls_to g (gact f v g) (snd (works v f n))).
  { intros f0 e E1 E2. rewrite E2. destruct (put_ok opposite v _ _ P) as [P1 P2]. unfold gact. rewrite E1.
    unfold pulse. destruct (drive opposite (own (g_vs g) v) (lev (g_vs g))) as [l1 e1]. cbn [fst snd] in *.
    destruct (put v opposite n) as [n1 k1] eqn:EP. cbn [fst snd] in *.
    destruct (put_ok opposite v _ _ P1) as [P3 P4]. cbn [own fn lev] in P3, P4.
    destruct (drive opposite (own (g_vs g) v) l1) as [l2 e2]. cbn [fst snd] in *.
    assert (D1 : n_pause n1 = n_pause n) by (unfold put in EP; inv EP; reflexivity).
    destruct (put v opposite n1) as [n2 k2] eqn:EQ. cbn [fst snd] in *.
    assert (D2 : n_pause n2 = n_pause n1) by (unfold put in EQ; inv EQ; reflexivity).
    split; [split; [exact P3|cbn [gp_log gp_vs g_delay]; congruence]|].
    unfold calls_to. cbn [gp_log g_log]. rewrite rev_app_distr, rev_involutive, P2, P4. reflexivity. }
  destruct f; try (eapply K; [discriminate|reflexivity|reflexivity]); try (eapply KP; reflexivity).
  cbn [works fst snd]. unfold gact. cbn [spec_action]. split; [|apply calls_none; reflexivity].
  destruct (g_vs g) eqn:EV. split; [|exact D]. exact P.
Qed.

Lemma lamp_ok : forall v (b : bool) n g f, f = (if b then V_SET_HI else V_SET_LO) -> psim n g ->
  psim (fst (lamp v b n)) (gact f v g) /\ calls_to g (gact f v g) (snd (lamp v b n)).
Proof. intros v b n g f -> H. pose proof (act_ok (if b then V_SET_HI else V_SET_LO) v n g H) as X. destruct b; exact X. Qed.

Lemma psim_mod : forall m n g, psim n g -> psim n (gp_mod m g).
Proof. intros m n g H. exact H. Qed.

Lemma shift_ok : forall x b n g, N.testbit x 1 = b -> psim n g ->
  psim (fst (lamp VSHIFT_LED b n)) (gset_shift x g) /\ calls_to g (gset_shift x g) (snd (lamp VSHIFT_LED b n)).
Proof. intros x b n g <- H. exact (lamp_ok VSHIFT_LED (N.testbit x 1) n g _ eq_refl H). Qed.
Lemma caps_ok : forall b n g, m_caps (g_mod g) = bitN b -> psim n g ->
  psim (fst (lamp VCAPS_LED (negb b) n)) (gtoggle_caps g) /\ calls_to g (gtoggle_caps g) (snd (lamp VCAPS_LED (negb b) n)) /\
  m_caps (g_mod (gtoggle_caps g)) = bitN (negb b).
Proof.
  intros b n g M H. unfold gtoggle_caps. cbv zeta. rewrite M.
  destruct (lamp_ok VCAPS_LED (negb b) n g (if (N.lxor (bitN b) 1 =? 0)%N then V_SET_LO else V_SET_HI)
              ltac:(destruct b; reflexivity) H) as [X Y].
  split; [exact X|]. split; [exact Y|]. destruct b; reflexivity.
Qed.

Lemma assign_ok : forall v p f i n g, psim n g ->
  psim (assigns v p f i n) (gp_vs (fst (vspec_step (VAssign v p f i) (g_vs g))) g).
Proof.
  intros v p f i n g [(A&B&C&D&E) F]. unfold assigns. cbn [vspec_step fst]. unfold is_virtual, is_physical.
  assert (FR : is_free (g_vs g) p = negb (existsb (fun d => d_phys d =? p) (n_devices n))).
  { apply eq_iff_eq_true. unfold is_free. rewrite forallb_forall. split.
    - intros H. apply negb_true_iff. apply not_true_is_false. intros X. apply existsb_exists in X.
      destruct X as [d [Hd X]]. apply Nat.eqb_eq in X. specialize (H (d_virt d)). specialize (E d Hd).
      assert (HI : In (d_virt d) (seq 0 12)) by (apply in_seq; lia). specialize (H HI).
      apply negb_true_iff in H. apply not_true_iff_false in H. apply H. apply existsb_exists. exists p.
      split; [|apply Nat.eqb_refl]. rewrite A. apply in_flat_map. exists d. split; [exact Hd|]. rewrite Nat.eqb_refl. left. exact X.
    - intros H w _. apply negb_true_iff. apply not_true_is_false. intros X. apply existsb_exists in X.
      destruct X as [q [Hq X]]. apply Nat.eqb_eq in X. subst q. rewrite A in Hq. apply in_flat_map in Hq. destruct Hq as [d [Hd Hq]].
      apply negb_true_iff in H. apply not_true_iff_false in H. apply H. apply existsb_exists. exists d. split; [exact Hd|].
      destruct (d_virt d =? w); [|contradiction]. destruct Hq as [Hq|[]]. apply Nat.eqb_eq. exact Hq. }
  rewrite FR. destruct ((1 <=? v) && (v <=? 11) && ((1 <=? p) && (p <=? 12)) && negb (existsb (fun d => d_phys d =? p) (n_devices n))) eqn:G;
    [|split; [repeat split; auto; apply E; auto|exact F]].
  split; [|exact F]. cbn [gp_vs g_vs]. unfold PV. cbn [own fn lev n_devices n_does].
  assert (NI : ~ In p (map d_phys (n_devices n))).
  { intros X. apply in_map_iff in X. destruct X as [d [<- Hd]]. apply andb_true_iff in G. destruct G as [_ G].
    apply negb_true_iff in G. apply not_true_iff_false in G. apply G. apply existsb_exists. exists d. split; [exact Hd|apply Nat.eqb_refl]. }
  split.
  { intros w. unfold set_at. cbn [flat_map d_virt d_phys]. rewrite (Nat.eqb_sym v w). destruct (Nat.eqb_spec w v); [subst|]; rewrite A; reflexivity. }
  split.
  { intros d [<-|Hd]; cbn [d_phys d_level]; unfold set_at; [rewrite Nat.eqb_refl; reflexivity|].
    destruct (Nat.eqb_spec (d_phys d) p) as [Q|Q]; [|apply B; exact Hd]. exfalso. apply NI. rewrite <- Q. apply in_map. exact Hd. }
  split.
  { intros w. unfold set_at. destruct (w =? v); auto. }
  split; [cbn [map d_phys]; constructor; auto|].
  intros d [<-|Hd]; [cbn [d_virt]; lia|apply E; exact Hd].
Qed.

Lemma setup_ok : forall cs b n g, m_caps (g_mod g) = bitN b -> psim n g ->
  psim (fst (sets_up cs b n)) (gsetup cs g) /\ calls_to g (gsetup cs g) (snd (sets_up cs b n)).
Proof.
  induction cs as [|c cs IH]; intros b n g M H; [split; [exact H|apply calls_none; reflexivity]|].
  change (gsetup (c :: cs) g) with (gsetup cs (gsetup_step c g)). destruct c; cbn [sets_up gsetup_step].
  - destruct ((mi <? 4) && (rows <=? 16) && (cols <=? 8)); [|apply IH; auto].
    exact (IH b n (gp_maps (upd (g_maps g) mi (mkKmap (Some matrix) rows cols)) g) M H).
  - destruct ((0 <? id) && (id <? 16)); [|apply IH; auto]. exact (IH b n (gp_hook (upd (g_hook g) id f) g) M H).
  - exact (IH b _ (gp_vs (fst (vspec_step (VAssign vo po fn init) (g_vs g))) g) M (assign_ok vo po fn init n g H)).
  - refine (IH b _ (gp_delay (u8 ms) g) M _). destruct H as [H _]. split; [exact H|reflexivity].
  - destruct (caps_ok b n g M H) as (X1&X2&X3). destruct (lamp VCAPS_LED (negb b) n) as [n1 l1]. cbn [fst snd] in *.
    destruct (IH (negb b) n1 (gtoggle_caps g) X3 X1) as [Y1 Y2]. destruct (sets_up cs (negb b) n1) as [n2 l2]. cbn [fst snd] in *.
    split; [exact Y1|]. unfold calls_to in *. rewrite Y2, X2, app_assoc. reflexivity.
  - destruct (IH b n (gnote EvStrobeNeg g) M H) as [Y1 Y2]. destruct (sets_up cs b n) as [n1 l1]. cbn [fst snd] in *.
    split; [exact Y1|]. unfold calls_to in *. rewrite Y2. cbn [gnote gp_log g_log rev]. rewrite <- app_assoc. reflexivity.
Qed.

Lemma bare_ok : forall i g, psim (bare_panel (g_delay g)) (gclear i g).
Proof.
  intros i g. split; [|reflexivity]. unfold PV. cbn [bare_panel n_devices n_does flat_map map].
  repeat split; auto; try (intros; contradiction). constructor.
Qed.

Lemma select_ok : forall kbs i e n g, is_set e g -> psim n g ->
  psim (fst (selects kbs i e n)) (gselect kbs i g) /\ calls_to g (gselect kbs i g) (snd (selects kbs i e n)).
Proof.
  intros kbs i e n g [S1 S2] H. unfold selects, gselect. rewrite S1. destruct (i =? e_kb e)%N; [split; [exact H|apply calls_none; reflexivity]|].
  unfold gswitch. destruct (kbs i) as [cs|]; [|split; [exact H|apply calls_none; reflexivity]].
  assert (M : m_caps (g_mod (gclear i g)) = bitN (e_caps e)) by (cbn [gclear gnote gp_log gp_maps gp_hook gp_vs gp_cur g_mod]; rewrite S2; reflexivity).
  destruct H as [_ D]. pose proof (bare_ok i g) as B. rewrite D in B. destruct (setup_ok cs (e_caps e) _ _ M B) as [Y1 Y2].
  destruct (sets_up cs (e_caps e) (bare_panel (n_pause n))) as [n1 l1]. cbn [fst snd] in *. split; [exact Y1|].
  unfold calls_to in *. rewrite Y2. cbn [gclear gnote gp_log g_log rev gp_maps gp_hook gp_vs gp_cur]. rewrite <- app_assoc. reflexivity.
Qed.

Lemma phook : forall id n g g', psim n g -> ghook id g = Ok g' -> psim n g' /\ calls_to g g' [].
Proof.
  intros id n g g' P H. unfold ghook in H.
  destruct (nth id (g_hook g) HUnset) as [| | | | |m]; try destruct (format m); inv H; (split; [exact P|apply calls_none; reflexivity]).
Qed.

Section All.
Variable kbs : N -> option (list setup_cmd).
Variable R C : nat.
Hypothesis sound : sound_firmware R kbs.
Hypothesis size : same_size R C kbs.

Definition all_sim (o : office) (g : gkb) : Prop :=
  sim (o_typist o) g /\ psim (o_panel o) g /\ rev (g_log g) = o_calls o.

Lemma all_start : forall o g g1 g2, Tab kbs g -> Tab kbs g1 -> all_sim o g -> gsend g = Ok g1 -> ghook HOOK_EACH_SCAN g1 = Ok g2 ->
  all_sim (begins kbs o) g2.
Proof.
  intros [t n w] g g1 g2 T T1 (S&P&W) E1 E2. cbn [o_typist o_panel o_calls] in *.
  split; [exact (sim_start kbs R C sound t g g1 g2 T T1 S E1 E2)|]. unfold begins. cbn [o_typist o_panel o_calls].
  destruct S as [_ S]. apply core_is in S. destruct S as (_&_&Q3&Q4&_).
  assert (EM : forall x h h', gemit x h = Ok h' -> psim n h -> psim n h' /\ calls_to h h' (if (x <? 0xA0)%N then [EvSend x] else [])).
  { intros x h h' HE PH. unfold gemit in HE. destruct (x <? 0xA0)%N; [|inv HE; split; [exact PH|apply calls_none; reflexivity]].
    destruct (nth HOOK_OUTPUT (g_hook h) HUnset); inv HE. split; [exact PH|apply calls_note]. }
  assert (X : psim n g1 /\ calls_to g g1 (waits t n ++ leaves t)).
  { unfold gsend in E1. cbv zeta in E1. rewrite Q3, Q4 in E1. unfold waits, leaves. cbv zeta.
    destruct (hd 0xA0%N (t_msgs t) =? 0xA0)%N.
    - exact (EM _ _ _ E1 P).
    - destruct (EM _ _ _ E1 P) as [X1 X2]. split; [exact X1|]. unfold calls_to in *. rewrite X2.
      cbn [gnote gp_log g_log rev gp_qm]. rewrite (proj2 P), <- app_assoc. reflexivity. }
  destruct X as [X1 X2]. destruct (phook _ _ _ _ X1 E2) as [Y1 Y2]. split; [exact Y1|].
  unfold calls_to in *. rewrite Y2, app_nil_r, X2, W. reflexivity.
Qed.

Lemma all_fin : forall t n w v g g', sim (moved kbs t v) g' -> rev (g_log g) = w ->
  psim (fst (acts kbs (t_set t) n v)) g' /\ calls_to g g' (snd (acts kbs (t_set t) n v)) ->
  all_sim (moves kbs (mkOffice t n w) v) g'.
Proof.
  intros t n w v g g' S W [X Y]. unfold moves. cbn [o_typist o_panel o_calls].
  destruct (acts kbs (t_set t) n v) as [n1 l]. cbn [fst snd] in *. split; [exact S|]. split; [exact X|].
  cbn [o_calls]. unfold calls_to in Y. rewrite Y, W. reflexivity.
Qed.

Lemma all_press : forall r c o g g' x, Tab kbs g -> low g -> r < R -> c < C -> gcode r c g = Ok x ->
  all_sim o g -> gpress kbs x g = Ok g' -> all_sim (moves kbs o (r, c, Press)) g'.
Proof.
  intros r c [t n w] g g' x T L Hr Hc EX (S&P&W) H. cbn [o_typist o_panel o_calls] in *.
  apply (all_fin t n w (r, c, Press) g); [exact (sim_press kbs R C sound size r c t g g' x T L Hr Hc EX S H)|exact W|].
  destruct S as [S1 _]. pose proof S1 as [S0 SM].
  pose proof (set_code kbs R C sound size _ g r c T S1 Hr Hc) as EX2. rewrite EX in EX2. inv EX2.
  unfold acts. set (x := code_in kbs (t_set t) r c) in *. unfold gpress in H.
  assert (N0 : forall g', g_vs g' = g_vs g -> g_delay g' = g_delay g -> g_log g' = g_log g -> psim n g' /\ calls_to g g' []).
  { intros h V1 V2 V3. split; [|apply calls_none; exact V3]. destruct P as [P1 P2]. split; [rewrite V1; exact P1|rewrite V2; exact P2]. }
  destruct (N.ltb_spec 0xA0 x).
  - unfold gaction_on in H.
    destruct (decode x); cbn [fst snd];
      try (match type of H with ghook _ _ = _ => exact (phook _ _ _ _ P H) end; fail);
      try (inv H; apply N0; reflexivity).
    + inv H. apply shift_ok; auto.
    + inv H. apply shift_ok; auto. rewrite SM. cbn [m_shift]. unfold shift_val. destruct (e_shift (t_set t)), (e_lock (t_set t)); reflexivity.
    + inv H. apply shift_ok; auto. rewrite SM. cbn [m_shift]. unfold shift_val. destruct (e_shift (t_set t)), (e_lock (t_set t)); reflexivity.
    + inv H. destruct (caps_ok (e_caps (t_set t)) n g ltac:(rewrite SM; reflexivity) P) as (X1&X2&_). auto.
    + inv H. rewrite S0. apply select_ok; auto.
    + inv H. split; [exact P|apply calls_note].
    + inv H. destruct P as [P1 P2]. rewrite (proj1 (proj2 (proj2 P1))). apply act_ok. split; auto.
    + inv H. destruct P as [P1 P2]. rewrite (proj1 (proj2 (proj2 P1))). apply act_ok. split; auto.
    + destruct (n0 <=? 10); [exact (phook _ _ _ _ P H)|inv H; apply N0; reflexivity].
  - assert (Y : psim n g' /\ calls_to g g' []) by (inv H; destruct (g_last g =? x)%N; apply N0; reflexivity).
    destruct (low_nothing x ltac:(lia)) as [-> | ->]; exact Y.
Qed.

Lemma all_release : forall r c o g x, Tab kbs g -> low g -> r < R -> c < C -> gcode r c g = Ok x ->
  all_sim o g -> all_sim (moves kbs o (r, c, Release)) (grelease kbs x g).
Proof.
  intros r c [t n w] g x T L Hr Hc EX (S&P&W). cbn [o_typist o_panel o_calls] in *.
  apply (all_fin t n w (r, c, Release) g); [exact (sim_release kbs R C sound size r c t g x T L Hr Hc EX S)|exact W|].
  destruct S as [S1 _]. pose proof S1 as [S0 SM].
  pose proof (set_code kbs R C sound size _ g r c T S1 Hr Hc) as EX2. rewrite EX in EX2. inv EX2.
  unfold acts. set (x := code_in kbs (t_set t) r c) in *. unfold grelease.
  assert (N0 : forall g', g_vs g' = g_vs g -> g_delay g' = g_delay g -> g_log g' = g_log g -> psim n g' /\ calls_to g g' []).
  { intros h V1 V2 V3. split; [|apply calls_none; exact V3]. destruct P as [P1 P2]. split; [rewrite V1; exact P1|rewrite V2; exact P2]. }
  destruct (N.ltb_spec 0xA0 x).
  - unfold gaction_off. destruct (decode x); cbn [fst snd]; try (apply N0; reflexivity).
    + apply shift_ok; auto.
    + rewrite S0. apply select_ok; auto.
    + split; [exact P|apply calls_note].
  - assert (Y : psim n (if (g_last g =? x)%N then gp_last 0xA0%N g else g) /\ calls_to g (if (g_last g =? x)%N then gp_last 0xA0%N g else g) [])
      by (destruct (g_last g =? x)%N; apply N0; reflexivity).
    destruct (low_nothing x ltac:(lia)) as [-> | ->]; exact Y.
Qed.

Lemma all_held : forall r c o g g' x, Tab kbs g -> low g -> r < R -> c < C -> gcode r c g = Ok x ->
  all_sim o g -> gheld kbs x g = Ok g' -> all_sim (moves kbs o (r, c, Held)) g'.
Proof.
  intros r c [t n w] g g' x T L Hr Hc EX (S&P&W) H. cbn [o_typist o_panel o_calls] in *.
  apply (all_fin t n w (r, c, Held) g); [exact (sim_held kbs R C sound size r c t g g' x T L Hr Hc EX S H)|exact W|].
  cbn [acts fst snd].
  assert (N0 : forall g', g_vs g' = g_vs g -> g_delay g' = g_delay g -> g_log g' = g_log g -> psim n g' /\ calls_to g g' []).
  { intros h V1 V2 V3. split; [|apply calls_none; exact V3]. destruct P as [P1 P2]. split; [rewrite V1; exact P1|rewrite V2; exact P2]. }
  unfold gheld in H. unfold low in L. destruct (N.eqb_spec x (g_last g)); [|inv H; apply N0; reflexivity].
  destruct (repeat_tick (g_rep g)) as [[] q]; [|inv H; apply N0; reflexivity].
  unfold gpress in H. replace (0xA0 <? x)%N with false in H by lia.
  inv H. cbn [gp_rep gp_qk g_last]. destruct (g_last g =? g_last g)%N; apply N0; reflexivity.
Qed.

Lemma works_replay : forall rds pre o, works_on kbs R C pre rds o = replay R C _ (moves kbs) (begins kbs) pre rds o.
Proof. induction rds as [|rd rds IH]; intros; [reflexivity|]. cbn [works_on replay]. apply IH. Qed.

Lemma all_run : forall rds, exists g, grun kbs rds = Ok g /\ all_sim (works_on kbs R C [] rds (opens kbs)) g.
Proof.
  intros rds. rewrite works_replay.
  apply (ticks_exact kbs R C sound size _ (moves kbs) (begins kbs) all_sim (fun _ _ _ _ H => H) all_start all_press all_release all_held
              rds [] (opens kbs) (gboot kbs) (tab_boot R kbs sound) (boot_low kbs)); [|intros r c _ _; apply boot_dbp].
  destruct (proj1 sound) as [cs EK]. pose proof (sim_boot kbs R sound) as SB.
  unfold opens. rewrite EK. destruct (setup_ok cs false (bare_panel 0) (gclear 0 gzero) eq_refl (bare_ok 0 gzero)) as [Y1 Y2].
  destruct (sets_up cs false (bare_panel 0)) as [n l]. cbn [fst snd] in *.
  unfold all_sim. cbn [o_typist o_panel o_calls].
  assert (GB : gboot kbs = gsetup cs (gclear 0 gzero)) by (unfold gboot, gswitch; rewrite EK; reflexivity).
  split; [exact SB|]. rewrite GB. split; [exact Y1|]. unfold calls_to in Y2. rewrite Y2. reflexivity.
Qed.
End All.

(** ** C108 *)
Theorem C108_all_calls : forall R C kbs rds s, sound_firmware R kbs -> same_size R C kbs ->
  c_run kbs rds = Ok s -> events s = calls_of_run kbs R C rds.
Proof.
  intros R C kbs rds s HS HZ ES. destruct (run_ok_g R kbs HS rds) as (g&s'&E1&T1&E2&RL). rewrite ES in E2. inv E2.
  destruct (all_run kbs R C HS HZ rds) as [g' (E3&(_&_&X))]. rewrite E1 in E3. inv E3.
  rewrite (g_events _ _ RL). exact X.
Qed.
Print Assumptions C108_all_calls.

(** On the pins of either board every LED and output shows the last of these
    calls on one of its devices, in the manner of that device. *)
Theorem C108_pins : forall R C kbs mms h, sound_firmware R kbs -> same_size R C kbs -> Avr.at_reset h ->
  let l := calls_of_run kbs R C (map seen mms) in
  (forall ser x, exists s h', cs_run kbs (board_328p false ser x) mms h = Ok (s, h') /\
     forall p b, dev328 p b = true -> Avr.drive (Avr.io h') p b = expected PropArch328.own PropArch328.shows led328 p b l) /\
  (forall x, exists s h', cs_run kbs (board_2560 false x) mms h = Ok (s, h') /\
     forall p b, dev2560 p b = true -> Avr.drive (Avr.io h') p b = expected PropArch2560.own PropArch2560.shows led2560 p b l).
Proof.
  intros R C kbs mms h HS HZ HR l. destruct (run_ok_g R kbs HS (map seen mms)) as (g&s&E1&T1&E2&RL).
  pose proof (C108_all_calls R C kbs _ s HS HZ E2) as W. fold l in W.
  assert (K0 : kbs 0%N <> None) by (destruct (proj1 HS); congruence).
  destruct (C106_whole_board kbs mms h K0) as [A B]. split.
  - intros ser x. specialize (A false ser x). rewrite E2 in A. destruct A as (h'&k&X1&X2&X3).
    exists s, h'. split; [exact X1|]. intros p b HD. rewrite <- W, X3, first_call, X2. apply PropPins328.C76_pins_328p; auto.
  - intros x. specialize (B false x). rewrite E2 in B. destruct B as (h'&k&X1&X2&X3).
    exists s, h'. split; [exact X1|]. intros p b HD. rewrite <- W, X3, first_call, X2. apply PropPins2560.C76_pins_2560; auto.
Qed.
Print Assumptions C108_pins.

(** A keyboard with a CAPS LOCK lamp on LED 3, a toggled LED 1 and a long pulse
    on OUT1, a SHIFT LOCK without lamp, and a message with 40 ms pauses; the
    other one has its CAPS LOCK lamp on LED 1 and turns CAPS LOCK on. *)
Definition lamps (i : N) : option (list setup_cmd) :=
  let keys a := [a; 0xA4; 0xAE; 0xB1; 0xA7; 0xA8]%N in
  if (i =? 0)%N then
    Some [SAddMap (keys 97%N) 0 1 6; SAddMap (keys 65%N) 1 1 6; SAddMap (keys 66%N) 2 1 6; SAddMap (keys 1%N) 3 1 6;
          SAssign VCAPS_LED LED3 V_NOFUNC 0; SAssign VLED1 LED1 V_TOGGLE 1; SAssign VOUT1 OUT1 V_PULSE_LONG 1;
          SHook 5 (HPrint [72]%N); SDelay 40]
  else if (i =? 1)%N then
    Some [SAddMap (keys 48%N) 0 1 6; SAddMap (keys 49%N) 1 1 6; SAddMap (keys 50%N) 2 1 6; SAddMap (keys 51%N) 3 1 6;
          SAssign VCAPS_LED LED1 V_NOFUNC 0; SCapslock]
  else None.
Lemma lamps_sound : sound_firmware 1 lamps /\ same_size 1 6 lamps.
Proof.
  split; [split|].
  - eexists. reflexivity.
  - intros i cs E1. unfold lamps in E1. cbv zeta in E1. destruct (N.eqb_spec i 0); [|destruct (N.eqb_spec i 1)]; inv E1;
      (split; [lia|]; apply (sound_b_ok 1 1 6); vm_compute; reflexivity).
  - intros i cs mi E1 Hm. unfold lamps in E1. cbv zeta in E1. destruct (i =? 0)%N; [|destruct (i =? 1)%N]; inv E1;
      (do 4 (destruct mi as [|mi]; [eexists; vm_compute; reflexivity|]); lia).
Qed.
Definition tap (c : nat) : list (nat -> N) := hold 10 [(0, c)] ++ hold 10 [].
Definition tour : list (nat -> N) := tap 1 ++ tap 2 ++ tap 0 ++ tap 3 ++ tap 4 ++ tap 2 ++ tap 2 ++ hold 10 [(0, 5)].
Example C108_example :
  calls_of_run lamps 1 6 tour =
    [EvArchInit; EvOut LED3 1; EvOut LED1 0; EvSend 66; EvOut OUT1 0; EvPulseLong; EvOut OUT1 1; EvDelayMs 40; EvSend 72;
     EvOut LED1 1; EvOut LED1 0; EvArchInit; EvOut LED1 0] /\
  obs events (c_run lamps tour) = Some (calls_of_run lamps 1 6 tour) /\
  (exists s h', cs_run lamps (board_328p false true (fun _ => 0%N)) (map steady tour) PropArch328.hw0 = Ok (s, h') /\
     map (fun pb => Avr.drive (Avr.io h') (fst pb) (snd pb)) [(Avr.PC, 4%N); (Avr.PB, 4%N)] = [Avr.High; Avr.High]).
Proof.
  split; [vm_compute; reflexivity|]. split; [vm_compute; reflexivity|].
  assert (X : forall (o : outcome (kb * Avr.hw)) (P : kb -> Avr.hw -> Prop), match o with Ok (s, h) => P s h | Bad _ => False end -> exists s h, o = Ok (s, h) /\ P s h).
  { intros [[s h]|u] P H; [eauto|contradiction]. }
  apply X. vm_compute. reflexivity.
Qed.
