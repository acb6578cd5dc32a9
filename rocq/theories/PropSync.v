(** Selecting a keyboard and then calling asdf_virtual_sync: C95. *)
From Coq Require Import List NArith ZArith Arith Bool Lia.
From Coq Require Import ZifyBool ZifyNat ZifyN.
From Verif Require Import Base Lib Buffer BufferSpec BufferProofs Repeat Devices DevSpec DevProofs PropDevices
     Modifiers Hook KeymapData Asdf KeySpec KeyRef Obs PropKeymaps PinSpec.
From Verif Require Avr Arch328p Arch2560 PropArch328 PropArch2560 PropHost328 PropHost2560 PropPins328 PropPins2560.
Import ListNotations.
Local Open Scope outcome_scope.

(** asdf_keymaps_switch (asdf_keymaps.c 160-173) followed by asdf_virtual_sync
    (asdf_virtual.c 240-245), the function written to "synchronize the physical
    outputs with their controlling virtual devices" (line 232).  No code
    under src calls it; the test keymaps do, at the end of their setup
    (test/test_asdf_keymap_defs.c 99-142).  So the claim is about the API. *)
Definition switch_and_sync (i : N) (s : kb) : outcome kb :=
  s1 <- keymaps_switch i s ;;
  d <- virtual_sync (k_dev s1) ;;
  Ok (set_dev d s1).

(** ** Specification *)
(** The level a keymap declares for a device; the CAPS LOCK LED shows CAPS LOCK on
    the keyboards that start with it. *)
Definition declared (i : N) (s' : kb) (v : nat) (x : N) : N :=
  if toggles_caps i && (v =? VCAPS_LED) then (if caps_on s' then 1%N else 0%N) else x.
(** A board that was initialised, ran [l] and then the calls [new]; every pin of
    device [p] shows level [v]. *)
Definition pins_328p (p : nat) (v : N) (new : list event) : Prop :=
  forall ser x h l pt b, Avr.at_reset h -> PropArch328.own p pt b = true ->
  Avr.drive (Avr.io (Arch328p.steps (PropArch328.mk false ser x) (Arch328p.OCall EvArchInit :: l ++ map Arch328p.OCall new) h)) pt b =
    PropArch328.shows p (negb (v =? 0)%N).
Definition pins_2560 (p : nat) (v : N) (new : list event) : Prop :=
  forall x h l pt b, Avr.at_reset h -> PropArch2560.own p pt b = true ->
  Avr.drive (Avr.io (Arch2560.steps (PropArch2560.mk false x) (Arch2560.OCall EvArchInit :: l ++ map Arch2560.OCall new) h)) pt b =
    PropArch2560.shows p (negb (v =? 0)%N).

(** ** Proof *)
Lemma sync_switch : forall i s, (i < 6)%N -> length (k_maps s) = 4 ->
  exists s' lv new, switch_and_sync i s = Ok s' /\ lv = fst (driven_by i (k_mod s)) /\
    caps_on s' = negb (caps_after i (k_mod s) =? 0)%N /\
    events s' = events s ++ new ++ map (fun p => EvOut p (lv p)) (seq 0 13).
Proof.
  intros i s Hi HM. destruct (switch_full i s Hi HM) as [d (A&B&C)]. destruct (sync_refines _ _ A) as (d'&S1&_&S3).
  unfold switch_and_sync. rewrite C. cbn [bind].
  change (k_dev (set_md (mkMods (m_shift (k_mod s)) (caps_after i (k_mod s)) (m_ctrl (k_mod s)), d)
      (set_cur i (with_tables (maps_of i) (hooks_of i) d 40 s)))) with d.
  rewrite S1. cbn [bind]. eexists. exists (fst (driven_by i (k_mod s))).
  exists (rev ((if (i =? 4)%N then [EvStrobeNeg] else []) ++ rev (snd (driven_by i (k_mod s))) ++ [EvArchInit])).
  split; [reflexivity|]. split; [reflexivity|]. split; [reflexivity|].
  unfold events. change (k_dev (set_dev d' _)) with d'. rewrite S3, B, rev_app_distr, rev_involutive. cbn [DevSpec.lev].
  rewrite (app_assoc (rev (log (k_dev s)))). f_equal. rewrite <- rev_app_distr. f_equal. rewrite <- !app_assoc. reflexivity.
Qed.

Lemma declared_level : forall i s v p f x, (i < 6)%N -> In (SAssign v p f x) (setup_of i) ->
  p < 13 /\ fst (driven_by i (k_mod s)) p =
       (if toggles_caps i && (v =? VCAPS_LED) then (if negb (caps_after i (k_mod s) =? 0)%N then 1%N else 0%N) else x).
Proof.
  intros i s v p f x Hi HIn. unfold driven_by. kcases i; cbn in HIn;
      repeat (destruct HIn as [HIn|HIn]; [try discriminate HIn; inv HIn|]);
      try contradiction; cbn [toggles_caps];
      (split; [apply Nat.ltb_lt; reflexivity|]); try reflexivity;
      destruct (caps_after _ _ =? 0)%N; reflexivity.
Qed.

(** Levels of the devices no keymap declares. *)
Lemma undeclared_level : forall i s, (i < 6)%N -> fst (driven_by i (k_mod s)) 9 = 1%N /\
  (i = 4%N -> fst (driven_by i (k_mod s)) 3 = 1%N /\ fst (driven_by i (k_mod s)) 6 = 1%N).
Proof.
  intros i s Hi. unfold driven_by. kcases i; cbn [toggles_caps]; try destruct (caps_after _ _ =? 0)%N;
    split; try reflexivity; intros H; try discriminate H; split; reflexivity.
Qed.

Lemma calls_328 : forall l ev, PropHost328.calls (l ++ map Arch328p.OCall ev) = PropHost328.calls l ++ ev.
Proof.
  intros l ev. unfold PropHost328.calls. rewrite flat_map_app. f_equal.
  induction ev as [|e ev IH]; [reflexivity|]. cbn [map flat_map app]. rewrite IH. reflexivity.
Qed.
Lemma calls_256 : forall l ev, PropHost2560.calls (l ++ map Arch2560.OCall ev) = PropHost2560.calls l ++ ev.
Proof.
  intros l ev. unfold PropHost2560.calls. rewrite flat_map_app. f_equal.
  induction ev as [|e ev IH]; [reflexivity|]. cbn [map flat_map app]. rewrite IH. reflexivity.
Qed.

(** What the last of the synchronisation calls leave on a pin. *)
Lemma expected_sync : forall own shows led pt b pre (lv : nat -> N),
  expected own shows led pt b (pre ++ map (fun p => EvOut p (lv p)) (seq 0 13)) =
  match List.find (fun p => own p pt b) (rev (seq 0 13)) with
  | Some p => shows p (negb (lv p =? 0)%N)
  | None => expected own shows led pt b pre
  end.
Proof.
  intros own shows led pt b pre lv. generalize (seq 0 13). intros q. induction q as [|p q IH] using rev_ind.
  - rewrite app_nil_r. reflexivity.
  - rewrite map_app, app_assoc. cbn [map]. rewrite expected_snoc, rev_app_distr. cbn [rev app List.find].
    destruct (own p pt b); [reflexivity|exact IH].
Qed.

Lemma find_own : forall (own : nat -> Avr.port -> N -> bool) shows p q (lv : nat -> N) x pt b,
  List.find (fun p => own p pt b) (rev (seq 0 13)) = Some q -> shows q (negb (lv q =? 0)%N) = shows p (negb (x =? 0)%N) ->
  forall led pre, expected own shows led pt b (pre ++ map (fun p => EvOut p (lv p)) (seq 0 13)) = shows p (negb (x =? 0)%N).
Proof. intros own shows p q lv x pt b H E led pre. rewrite expected_sync, H. exact E. Qed.

Lemma reach_328p : forall (lv : nat -> N) pre p v, 
  (forall pt b, PropArch328.own p pt b = true -> dev328 pt b = true /\ exists q,
     List.find (fun p => PropArch328.own p pt b) (rev (seq 0 13)) = Some q /\ PropArch328.shows q (negb (lv q =? 0)%N) = PropArch328.shows p (negb (v =? 0)%N)) ->
  pins_328p p v (pre ++ map (fun p => EvOut p (lv p)) (seq 0 13)).
Proof.
  intros lv pre p v H ser x h l pt b HR HO. destruct (H pt b HO) as [HD [q [HF HE]]].
  rewrite PropPins328.C76_pins_328p by assumption. rewrite calls_328, app_assoc. exact (find_own _ _ _ q _ _ _ _ HF HE _ _).
Qed.
Lemma reach_2560 : forall (lv : nat -> N) pre p v, 
  (forall pt b, PropArch2560.own p pt b = true -> dev2560 pt b = true /\ exists q,
     List.find (fun p => PropArch2560.own p pt b) (rev (seq 0 13)) = Some q /\ PropArch2560.shows q (negb (lv q =? 0)%N) = PropArch2560.shows p (negb (v =? 0)%N)) ->
  pins_2560 p v (pre ++ map (fun p => EvOut p (lv p)) (seq 0 13)).
Proof.
  intros lv pre p v H x h l pt b HR HO. destruct (H pt b HO) as [HD [q [HF HE]]].
  rewrite PropPins2560.C76_pins_2560 by assumption. rewrite calls_256, app_assoc. exact (find_own _ _ _ q _ _ _ _ HF HE _ _).
Qed.

(** ** C95 *)
(** Full claim: after the selection and asdf_virtual_sync every device the keymap
    declares shows its declared level at its pins, on either board and whatever
    happened before.  Proved: the device is called with the declared level last,
    and all pins are right except that of OUT3.  Missing: OUT3, refuted below. *)
Theorem C95_sync_partial : forall i s v p f x, (i < 6)%N -> length (k_maps s) = 4 -> In (SAssign v p f x) (setup_of i) ->
  exists s' new, switch_and_sync i s = Ok s' /\ events s' = events s ++ new /\
    last_driven (rev new) p = Some (declared i s' v x) /\
    (p <> OUT3_OPEN_HI -> pins_328p p (declared i s' v x) new /\ pins_2560 p (declared i s' v x) new).
Proof.
  intros i s v p f x Hi HM HIn. destruct (sync_switch i s Hi HM) as (s'&lv&new&E&EL&EC&EV).
  destruct (declared_level i s v p f x Hi HIn) as [HP HL]. rewrite <- EC, <- EL in HL. fold (declared i s' v x) in HL.
  destruct (undeclared_level i s Hi) as [U9 U4]. rewrite <- EL in U9, U4.
  exists s'. eexists. split; [exact E|]. split; [exact EV|]. split.
  - rewrite rev_app_distr, last_driven_app, <- HL, sync_last; [reflexivity|]. apply in_seq. lia.
  - intros NP. rewrite <- HL. split; [apply reach_328p|apply reach_2560]; clear -NP HIn Hi U4 HL; intros pt b HO.
    + kcases i; cbn in HIn; repeat (destruct HIn as [HIn|HIn]; [try discriminate HIn; inv HIn|]); try contradiction;
        try (exfalso; apply NP; reflexivity); cbv [PropArch328.own] in HO; cbn in HO; apply ArchLib.pin_eq in HO; destruct HO as [<- <-];
        (split; [reflexivity|]); eexists; (split; [reflexivity|]); try reflexivity;
        destruct (U4 eq_refl) as [U U']; rewrite HL, ?U, ?U'; reflexivity.
    + kcases i; cbn in HIn; repeat (destruct HIn as [HIn|HIn]; [try discriminate HIn; inv HIn|]); try contradiction;
        try (exfalso; apply NP; reflexivity); cbv [PropArch2560.own] in HO; cbn in HO; apply ArchLib.pin_eq in HO; destruct HO as [<- <-];
        (split; [reflexivity|]); eexists; (split; [reflexivity|]); try reflexivity;
        destruct (U4 eq_refl) as [U U']; rewrite HL, ?U, ?U'; reflexivity.
Qed.
Print Assumptions C95_sync_partial.

(** Every keyboard declares OUT3 as an open-collector output at level 1 (pulled
    up, not driven).  After the selection and asdf_virtual_sync both boards drive
    the pin high: the synchronisation also calls OUT3_OPEN_LO, which no keymap
    uses, on the same pin and later. *)
Theorem C95_sync_pins_refuted : forall i s, (i < 6)%N -> length (k_maps s) = 4 ->
  In (SAssign VOUT1 OUT3_OPEN_HI V_PULSE_SHORT 1) (setup_of i) /\
  PropArch328.shows OUT3_OPEN_HI true = Avr.Pullup /\ PropArch2560.shows OUT3_OPEN_HI true = Avr.Pullup /\
  exists s' new, switch_and_sync i s = Ok s' /\ events s' = events s ++ new /\
    forall h, Avr.at_reset h ->
    (forall ser x l, Avr.drive (Avr.io (Arch328p.steps (PropArch328.mk false ser x)
       (Arch328p.OCall EvArchInit :: l ++ map Arch328p.OCall new) h)) Avr.PB 7 = Avr.High) /\
    (forall x l, Avr.drive (Avr.io (Arch2560.steps (PropArch2560.mk false x)
       (Arch2560.OCall EvArchInit :: l ++ map Arch2560.OCall new) h)) Avr.PB 7 = Avr.High).
Proof.
  intros i s Hi HM. split; [kcases i; cbn; auto 12|]. split; [reflexivity|]. split; [reflexivity|].
  destruct (sync_switch i s Hi HM) as (s'&lv&new&E&EL&EC&EV). destruct (undeclared_level i s Hi) as [U9 _]. rewrite <- EL in U9.
  exists s'. eexists. split; [exact E|]. split; [exact EV|]. intros h HR. split.
  - intros ser x l. rewrite PropPins328.C76_pins_328p by (assumption || reflexivity). rewrite calls_328, app_assoc, expected_sync.
    change (List.find _ _) with (Some 9). cbv iota. rewrite U9. reflexivity.
  - intros x l. rewrite PropPins2560.C76_pins_2560 by (assumption || reflexivity). rewrite calls_256, app_assoc, expected_sync.
    change (List.find _ _) with (Some 9). cbv iota. rewrite U9. reflexivity.
Qed.
Print Assumptions C95_sync_pins_refuted.

(** Keyboard 2 from power-on storage: the CAPS LED on, OUT1 floating. *)
Example C95_example : length (k_maps kb_zero) = 4 /\ In (SAssign VOUT2 OUT1_OPEN_LO V_PULSE_LONG 0) (setup_of 2) /\
  obs events (switch_and_sync 2 kb_zero) = Some ([EvArchInit; EvOut LED1 1] ++
    [EvOut 0 1; EvOut 1 1; EvOut 2 1; EvOut 3 0; EvOut 4 1; EvOut 5 1; EvOut 6 1; EvOut 7 1; EvOut 8 1; EvOut 9 1;
     EvOut 10 1; EvOut 11 1; EvOut 12 0])%N.
Proof. split; [reflexivity|]. split; [cbn; auto 12|]. vm_compute. reflexivity. Qed.
